(** Property C89: single bits of consecutive outputs identify the state. *)
From Coq Require Import NArith List.
From Verif Require Import Base.Word Model.Xorshift Model.Xoroshiro Model.TinyMT
  Spec.XorshiftSpec Spec.TinySpec Spec.RecoverSpec Spec.FlipSpec Proofs.FlipProofs.
Import ListNotations.
Open Scope N_scope.

(** C89. Any one bit of 128 consecutive outputs of a Xorshift128 gives its state. *)
Theorem C89_xorshift_any_bit : forall m m' b st st', b < 32 -> xs_words st -> xs_words st' ->
  map (fun r => N.testbit r b) (results (xs_next m) 128 st) =
  map (fun r => N.testbit r b) (results (xs_next m') 128 st') -> st = st'.
Proof. exact xs_bit_gives_state. Qed.
Print Assumptions C89_xorshift_any_bit.
(** 128 calls of next_rand(2) give it. *)
Theorem C89_xorshift_coin_flips : forall m m' st st', xs_words st -> xs_words st' ->
  results (fun s => xs_next_rand m s 2) 128 st = results (fun s => xs_next_rand m' s 2) 128 st' -> st = st'.
Proof. exact xs_flips_give_state. Qed.
Print Assumptions C89_xorshift_coin_flips.
(** The lowest bit of 128 consecutive outputs of a xoroshiro128+ gives its state. *)
Theorem C89_xoroshiro_lowest_bit : forall st st', xo_words st -> xo_words st' ->
  map N.odd (results xo_next 128 st) = map N.odd (results xo_next 128 st') -> st = st'.
Proof. exact xo_bit_gives_state. Qed.
Print Assumptions C89_xoroshiro_lowest_bit.
(** 128 calls of next_rand(2), none of which draws twice, give it. *)
Theorem C89_xoroshiro_coin_flips : forall fuel m st, xo_words st ->
  exists l, results_or_exn (fun s => xo_next_rand fuel m s 2) 128 st = Ok l /\
  forall fuel' m' st', xo_words st' ->
    results_or_exn (fun s => xo_next_rand fuel' m' s 2) 128 st' = Ok l -> st' = st.
Proof. exact xo_flips_give_state. Qed.
Print Assumptions C89_xoroshiro_coin_flips.
(** The lowest bit of 127 consecutive outputs of a TinyMT gives the 127 bits of its state
    that matter: the next state is the same. *)
Theorem C89_tinymt_lowest_bit : forall m m' s s', tiny_words s -> tiny_words s' ->
  map N.odd (results (tiny_next m) 127 (tiny_arr s)) = map N.odd (results (tiny_next m') 127 (tiny_arr s')) ->
  tiny127 s = tiny127 s' /\ fst (tiny_next m (tiny_arr s)) = fst (tiny_next m' (tiny_arr s')).
Proof. exact tiny_bit_gives_state. Qed.
Print Assumptions C89_tinymt_lowest_bit.
(** 127 calls of next_rand_mod(2) give them. *)
Theorem C89_tinymt_coin_flips : forall m m' s s', tiny_words s -> tiny_words s' ->
  results (fun st => tiny_next_rand_mod m st 2) 127 (tiny_arr s) =
  results (fun st => tiny_next_rand_mod m' st 2) 127 (tiny_arr s') ->
  tiny127 s = tiny127 s' /\ fst (tiny_next m (tiny_arr s)) = fst (tiny_next m' (tiny_arr s')).
Proof. exact tiny_flips_give_state. Qed.
Print Assumptions C89_tinymt_coin_flips.
(** One flip less is not enough: these states show as many heads in a row as the state of
    zeros, which shows nothing else. *)
Theorem C89_one_less_not_enough :
  map N.odd (results (xs_next NumPy) 127 [0x56A1C38E; 0xD3F91898; 0x410AD204; 0xFA4342D1])
    = map N.odd (results (xs_next NumPy) 127 [0; 0; 0; 0]) /\
  map N.odd (results xo_next 127 [0xB18A896A28D55E13; 0xBDBE477DA56A70B3])
    = map N.odd (results xo_next 127 [0; 0]) /\
  map N.odd (results (tiny_next NumPy) 126 [0x1AA43AAA; 0x61D7401; 0x7E68DFFD; 0x34D0C803])
    = map N.odd (results (tiny_next NumPy) 126 [0; 0; 0; 0]).
Proof. split; [now vm_compute|]. split; now vm_compute. Qed.
Print Assumptions C89_one_less_not_enough.
Example C89_case :
  xs_words [1; 2; 3; 4] /\ results (fun s => xs_next_rand Numba s 2) 6 [1; 2; 3; 4] = [Ok 1; Ok 1; Ok 0; Ok 0; Ok 1; Ok 0] /\
  xo_words [1; 2] /\ results_or_exn (fun s => xo_next_rand 0 Numba s 2) 6 [1; 2] = Ok [1; 1; 1; 1; 0; 0] /\
  tiny_words (1, 2, 3, 4) /\
  results (fun st => tiny_next_rand_mod Numba st 2) 6 (tiny_arr (1, 2, 3, 4)) = [Ok 0; Ok 0; Ok 1; Ok 1; Ok 0; Ok 0].
Proof.
  split; [now exists 1, 2, 3, 4; repeat split|]. split; [now vm_compute|].
  split; [now exists 1, 2; repeat split|]. split; [now vm_compute|]. split; [now vm_compute|]. now vm_compute.
Qed.
