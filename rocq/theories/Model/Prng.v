(** The random number library (jax.random, tensorflow_probability), as an
    interface of pure functions of keys.  Library behaviour: a sampler is a
    function of its key and arguments; nothing else is assumed here.  The ranges
    that the library documents are stated in Spec/PrngSpec.v and are hypotheses
    of the theorems that need them. *)
From Coq Require Import ZArith Reals.

(** Library behaviour: jax.random, as an oracle (e.g. balloon_arena.py:160-171,
    sampling.py:37-152). *)
Record prng := mkPrng {
  key : Type;
  prng_key : Z -> key;                       (* jax.random.PRNGKey(seed) *)
  split : key -> nat -> nat -> key;          (* jax.random.split(key, num)[i] *)
  choice : key -> Z -> Z;                    (* jax.random.choice(key, n) *)
  uniform : key -> R -> R -> R;              (* jax.random.uniform(key, (), minval, maxval) *)
  uniforms : key -> nat -> nat -> R;         (* jax.random.uniform(key, (n,))[i] *)
  normals : key -> nat -> nat -> R;          (* jax.random.normal(key, (n,))[i] *)
  beta : key -> R -> R -> R;                 (* jax.random.beta(key, a, b) *)
  logit_normal : key -> R;                   (* tfp LogitNormal(2, 315).sample(seed=key) *)
  log_normal : key -> R                      (* tfp LogNormal(0, 1).sample(seed=key) *)
}.
