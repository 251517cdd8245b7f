(** Model of agents/perciatelli44.py (paths relative to
    /repo/balloon_learning_environment/): the frozen Perciatelli44 agent.  Its network, a
    frozen TensorFlow graph, is an oracle that maps an observation to action values. *)
From Coq Require Import ZArith Reals List Bool.
From Verif Require Import Model.Num Model.Loading Model.Agents.
Import ListNotations.

Section Agent.
(** Library behaviour: importing the graph from these bytes and asking it for q_values:0 for
    an observation (26-34, 61-64, 68-69, 74-75). *)
Context (q_values : list Z -> list R -> list R).

(** __init__: 49-64; the two checks, then the session (26-34), with the default path. *)
Definition new_perciatelli44 (num_actions : Z) (observation_shape : list Z)
    (packaged relative : location) : outcome (list Z) :=
  match perciatelli44_accepts num_actions observation_shape with
  | Raises e => Raises e
  | Returns _ => load_perciatelli44 None packaged relative
  end.
(** begin_episode and step, 67-70 and 73-76: reshape((1, 1099)) raises unless there are 1099
    numbers, and np.argmax raises on an empty array. *)
Definition answer_44 (graph : list Z) (observation : list R) : option (list Z * Z) :=
  if (List.length observation =? 1099)%nat then
    match q_values graph observation with
    | [] => None
    | q => Some (graph, Z.of_nat (argmax q))
    end
  else None.
(** The class: 37-79; set_mode is that of agent.py:97-109, a no-op; the state is the graph. *)
Definition perciatelli44_agent : agent_class (list R) := {|
  ag_state := list Z;
  ag_set_mode g _ := g;
  ag_begin_episode := answer_44;
  ag_step g _ := answer_44 g;
  ag_end_episode g _ _ := Some g
|}.
End Agent.
