(** IVs as a function of the seed. *)
From Coq Require Import NArith List.
From Verif Require Import Spec.Gen3Spec Spec.Gen3WildSpec.
Import ListNotations.
Open Scope N_scope.

(** The six IVs (HP, Attack, Defense, Special Attack, Special Defense, Speed) made of rands
    number [j] and [j + gap] from seed [s]. [gap] is 1 for Methods 1 and 2, 2 for Method 4. *)
Definition spread (gap j s : N) : list N := ivs_from (rand_at s j) (rand_at s (j + gap)).

(** Six numbers that can be IVs. *)
Definition ivs_ok (ivs : list N) : Prop := length ivs = 6%nat /\ Forall (fun x => x < 32) ivs.
