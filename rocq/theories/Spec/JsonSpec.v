(** What result files say.  Only used to *state* properties. *)
From Coq Require Import ZArith Reals Bool String Ascii List Sorting.Permutation.
From Verif Require Import Model.Num Model.Eval Model.Json.
Import ListNotations.
Open Scope string_scope.

(** ** Numbers as text *)
(** One or more decimal digits. *)
Definition numerals (t : string) : Prop :=
  t <> "" /\ forall c, In c (list_ascii_of_string t) -> In c (list_ascii_of_string "0123456789").
(** 0, or digits that do not begin with 0. *)
Definition integer_part (t : string) : Prop := t = "0" \/ (numerals t /\ forall r, t <> "0" ++ r).
(** A number with a fraction or an exponent (or both), such as 1.5, -0.25 or 1e-07. *)
Definition float_literal (t : string) : Prop :=
  exists sign i f e, t = sign ++ i ++ f ++ e /\ In sign [""; "-"] /\ integer_part i /\
    (f = "" \/ exists d, numerals d /\ f = "." ++ d) /\
    (e = "" \/ exists mark s d, In mark ["e"; "E"] /\ In s [""; "+"; "-"] /\ numerals d /\ e = mark ++ s ++ d) /\
    ~ (f = "" /\ e = "").
(** What is assumed of Python's floats: [nearest] is the float that stands for a number,
    and stands for itself; printing gives a literal of it, from which it is read back. *)
Record python_floats (repr : R -> string) (float_of : string -> R) (nearest : R -> R) : Prop := {
  literal : forall x, float_literal (repr x);
  read_back : forall x, float_of (repr x) = nearest x;
  is_float : forall x, nearest (nearest x) = nearest x
}.

(** ** Results as records *)
Section Records.
Context (nearest : R -> R).
Open Scope R_scope.
(** A place of a flight: kilometres, pascals, seconds and the fraction of the charge. *)
Definition place_record (p : simple_state) : json :=
  Obj [("x", Float (nearest (s_x p / 1000))); ("y", Float (nearest (s_y p / 1000)));
       ("pressure", Float (nearest (s_pressure p))); ("superpressure", Float (nearest (s_superpressure p)));
       ("elapsed_seconds", Float (nearest (IZR (s_time_elapsed p) / 1000000)));
       ("power", Float (nearest (s_battery_soc p)))]%string.
(** A result, with its flight path or without. *)
Definition result_record (with_path : bool) (r : eval_result) : json :=
  Obj [("seed", Int (r_seed r)); ("cumulative_reward", Float (nearest (r_cumulative_reward r)));
       ("time_within_radius", Float (nearest (r_time_within_radius r)));
       ("out_of_power", Bool (r_out_of_power r)); ("envelope_burst", Bool (r_envelope_burst r));
       ("zeropressure", Bool (r_zeropressure r)); ("final_timestep", Int (r_final_timestep r));
       ("flight_path", Arr (if with_path then map place_record (r_flight_path r) else []))]%string.
End Records.
