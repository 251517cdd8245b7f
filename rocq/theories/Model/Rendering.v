(** Model of env/rendering/matplotlib_renderer.py and of an environment with a renderer
    (env/balloon_env.py:145-247; paths relative to /repo/balloon_learning_environment/).
    What matplotlib draws is modelled as the data it is given; the picture of a figure is a
    parameter. *)
From Coq Require Import ZArith Reals List Bool String.
From RecordUpdate Require Import RecordSet.
From Verif Require Import Model.Num Model.Prng Model.Safety Model.Balloon Model.Atmosphere Model.WindField Model.Env.
Import ListNotations RecordSetNotations.
Open Scope R_scope.

(** ** MatplotlibRenderer: matplotlib_renderer.py:35-207 *)
(** _trajectory (kilometres), _charge (percent) and _datetime: 64-67, oldest first. *)
Record renderer := mkRenderer {
  r_trajectory : list (R * R * R);
  r_charge : list R;
  r_datetime : list Z
}.
(** reset: 64-67. *)
Definition renderer_reset : renderer := mkRenderer [] [] [].
(** step: 69-77; the altitude is looked up first, and nothing is recorded if that raises. *)
Definition renderer_step (r : renderer) (atm : atmosphere) (s : bstate R) : renderer * result unit :=
  match Atmosphere.at_pressure atm (pressure s) with
  | None => (r, Raised)
  | Some v =>
      (mkRenderer (r_trajectory r ++ [(x s / 1000, y s / 1000, v_height v / 1000)])
                  (r_charge r ++ [battery_soc s * 100]) (r_datetime r ++ [date_time s]), Returned tt)
  end.

(** What is plotted of the flight: the flight path, as a line (3d: 161-163, inset: 206) with a
    marker at its last point (164-171, 207), and the charge over time (190). *)
Record figure := mkFigure {
  path_line : list (R * R * R);
  marker : R * R * R;
  power_line : list (Z * R)
}.
(** What a call of render ends with: shown on screen, an array of pixels, or neither. *)
Inductive rendered (frame : Type) := Shown (f : figure) | Frame (p : frame) | Nothing.
Arguments Shown {frame}. Arguments Frame {frame}. Arguments Nothing {frame}.
(** render_modes: 123-125. *)
Definition render_modes : list string := ["human"; "rgb_array"; "tensorboard"]%string.

Section Render.
Context (frame : Type) (picture : figure -> frame).
(** render: 79-121, without a summary writer (as BalloonEnv.render calls it); [None]: an
    exception, also of np.vstack for an empty list (line 102). *)
Definition render (r : renderer) (mode : string) : option (rendered frame) :=
  if negb (existsb (String.eqb mode) render_modes) then None
  else
    match rev (r_trajectory r) with
    | [] => None
    | newest :: _ =>
        let fig := mkFigure (r_trajectory r) newest (combine (r_datetime r) (r_charge r)) in
        if String.eqb mode "human" then Some (Shown fig)
        else if String.eqb mode "rgb_array" then Some (Frame (picture fig))
        else Some Nothing
    end.

(** ** BalloonEnv with an optional renderer *)
Context (P : prng) (noise4d : Z -> R -> R -> R -> R -> R) (F : forecaster P) (FC : feature_class P F).
Context (reward_fn : wind_field P F -> atmosphere -> R * R -> bstate R -> option R) (draws : nat).
(** BalloonEnv with its attribute _renderer: balloon_env.py:150. *)
Record renv := mkREnv { base : env P F FC; e_renderer : option renderer }.

(** self._renderer.step(state), if there is a renderer: balloon_env.py:174-175, 218. *)
Definition record_state (r : option renderer) (atm : atmosphere) (s : bstate R) : option renderer * result unit :=
  match r with
  | None => (None, Returned tt)
  | Some r => let '(r, res) := renderer_step r atm s in (Some r, res)
  end.

(** step: balloon_env.py:157-190. *)
Definition renv_step (e : renv) (action : Z) : renv * result (observation P F FC * R * bool * info) :=
  let b := base e in
  match command_of_int action with
  | None => (e, Raised)
  | Some c =>
      match arena_step P noise4d F FC (e_arena P F FC b) c with
      | (a, Raised) => (mkREnv (mkEnv P F FC (e_radius P F FC b) (e_rng P F FC b) (e_iteration P F FC b) a) (e_renderer e), Raised)
      | (a, Returned o) =>
          let b := mkEnv P F FC (e_radius P F FC b) (e_rng P F FC b) (e_iteration P F FC b) a in
          match a_balloon P F FC a with
          | None => (mkREnv b (e_renderer e), Raised)
          | Some (center, s) =>
              match record_state (e_renderer e) (a_atmosphere P F FC a) s with
              | (r, Raised) => (mkREnv b r, Raised)
              | (r, Returned _) =>
                  match reward_fn (a_wind P F FC a) (a_atmosphere P F FC a) center s with
                  | None => (mkREnv b r, Raised)
                  | Some reward =>
                      let i := get_info s in
                      let is_terminal := out_of_power i || envelope_burst i || zeropressure i in
                      (mkREnv (mkEnv P F FC (e_radius P F FC b) (e_rng P F FC b) (e_iteration P F FC b + 1) a) r,
                       Returned (o, reward, is_terminal, i))
                  end
              end
          end
      end
  end.

(** reset: balloon_env.py:192-226, with return_info=True. *)
Definition renv_reset (e : renv) (seed : option Z) : renv * result (observation P F FC * info) :=
  let b := base e in
  let rng := match seed with Some z => prng_key P z | None => e_rng P F FC b end in
  match arena_reset P noise4d F FC draws (e_arena P F FC b) (split P rng 2 1) with
  | (a, res) =>
      let b := mkEnv P F FC (e_radius P F FC b) (split P rng 2 0) (e_iteration P F FC b) a in
      match res with
      | Raised => (mkREnv b (e_renderer e), Raised)
      | Returned o =>
          match a_balloon P F FC a with
          | None => (mkREnv b (e_renderer e), Raised)
          | Some (_, s) =>
              match record_state (match e_renderer e with None => None | Some _ => Some renderer_reset end)
                      (a_atmosphere P F FC a) s with
              | (r, Raised) => (mkREnv b r, Raised)
              | (r, Returned _) => (mkREnv b r, Returned (o, get_info s))
              end
          end
      end
  end.

(** __init__ with a new MatplotlibRenderer (line 39 of the renderer: it is reset):
    balloon_env.py:109-155. *)
Definition new_renv (radius_km : R) (seed : option Z) (now1 now2 : Z) : option renv :=
  match new_arena P noise4d F FC draws now1 with
  | None => None
  | Some a =>
      match renv_reset (mkREnv (mkEnv P F FC (radius_km * 1000) (prng_key P 0) 0 a) (Some renderer_reset))
              (Some (match seed with Some z => z | None => now2 end)) with
      | (e, Returned _) => Some e
      | (_, Raised) => None
      end
  end.

(** render: balloon_env.py:228-247; without a renderer it returns None. *)
Definition env_render (e : renv) (mode : string) : option (rendered frame) :=
  match e_renderer e with
  | None => Some Nothing
  | Some r => render r mode
  end.
End Render.
