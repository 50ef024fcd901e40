(** The shuffle of SFMT and the constructor of the wild generator under NumPy 2. *)
From Coq Require Import String NArith ZArith List Bool Lia.
From Verif Require Import Base.Word Base.WordLemmas Model.SFMT Model.Scalars Model.NumPy2 Model.Gen3State Model.Gen3Area Model.Gen3Wild
  Model.NumPy2Rest Model.Enums Spec.OtherSpec.
Import ListNotations.
Open Scope list_scope.
Open Scope N_scope.
Ltac Zify.zify_post_hook ::= idtac.

(** ** Bits lost early or late *)
Ltac bitwise := apply N.bits_inj; intros i; unfold shl32; repeat rewrite ?w32_bits, ?N.lxor_spec, ?N.lor_spec;
  destruct (i <? 32); rewrite ?andb_true_l, ?andb_false_l; reflexivity.
Lemma mix_0 a x y y' b d k l m : w32 (N.lxor a (N.lxor (N.lxor (N.lxor (shl32 x k) (N.lor (shl32 y l) y')) b) (shl32 d m)))
  = w32 (N.lxor a (N.lxor (N.lxor (N.lxor (N.shiftl x k) (N.lor (N.shiftl y l) y')) b) (N.shiftl d m))).
Proof. bitwise. Qed.
Lemma mix_1 a x x' y y' b d k l m : w32 (N.lxor a (N.lxor (N.lxor (N.lxor (N.lor (shl32 x k) x') (N.lor (shl32 y l) y')) b) (shl32 d m)))
  = w32 (N.lxor a (N.lxor (N.lxor (N.lxor (N.lor (N.shiftl x k) x') (N.lor (N.shiftl y l) y')) b) (N.shiftl d m))).
Proof. bitwise. Qed.
Lemma mix_3 a x x' y b d k m : w32 (N.lxor a (N.lxor (N.lxor (N.lxor (N.lor (shl32 x k) x') y) b) (shl32 d m)))
  = w32 (N.lxor a (N.lxor (N.lxor (N.lxor (N.lor (N.shiftl x k) x') y) b) (N.shiftl d m))).
Proof. bitwise. Qed.
Lemma lin_0 a x y y' b d k l m : w32 (N.lxor a (N.lxor (N.lxor (N.lxor (shl32 x k) b) (shl32 d m)) (N.lor (shl32 y l) y')))
  = w32 (N.lxor a (N.lxor (N.lxor (N.lxor (N.shiftl x k) b) (N.shiftl d m)) (N.lor (N.shiftl y l) y'))).
Proof. bitwise. Qed.
Lemma lin_1 a x x' y y' b d k l m : w32 (N.lxor a (N.lxor (N.lxor (N.lxor (N.lor (shl32 x k) x') b) (shl32 d m)) (N.lor (shl32 y l) y')))
  = w32 (N.lxor a (N.lxor (N.lxor (N.lxor (N.lor (N.shiftl x k) x') b) (N.shiftl d m)) (N.lor (N.shiftl y l) y'))).
Proof. bitwise. Qed.
Lemma lin_3 a x x' y b d k m : w32 (N.lxor a (N.lxor (N.lxor (N.lxor (N.lor (shl32 x k) x') b) (shl32 d m)) y))
  = w32 (N.lxor a (N.lxor (N.lxor (N.lxor (N.lor (N.shiftl x k) x') b) (N.shiftl d m)) y)).
Proof. bitwise. Qed.

Lemma first_same st : sfmt_py2_first st = sfmt_py_first st.
Proof. unfold sfmt_py2_first, sfmt_py_first. cbv zeta. rewrite !mix_0, !mix_1, !mix_3. exact eq_refl. Qed.
Lemma second_same st : sfmt_py2_second st = sfmt_py_second st.
Proof. unfold sfmt_py2_second, sfmt_py_second. cbv zeta. rewrite !mix_0, !mix_1, !mix_3. exact eq_refl. Qed.
Lemma loop1_same i st : sfmt_py2_loop1 i st = sfmt_py_loop1 i st.
Proof. unfold sfmt_py2_loop1, sfmt_py_loop1. cbv zeta. rewrite !lin_0, !lin_1, !lin_3. exact eq_refl. Qed.
Lemma loop2_same i st : sfmt_py2_loop2 i st = sfmt_py_loop2 i st.
Proof. unfold sfmt_py2_loop2, sfmt_py_loop2. cbv zeta. rewrite !lin_0, !lin_1, !lin_3. exact eq_refl. Qed.

Lemma for_range_same {A} (f g : nat -> A -> A) : (forall i a, f i a = g i a) ->
  forall n k a, for_range n k f a = for_range n k g a.
Proof. intros E. induction n as [|n IH]; intros k a; [reflexivity|]. cbn [for_range]. now rewrite E, IH. Qed.
Lemma shuffle_same st : sfmt_shuffle_py2 st = sfmt_shuffle_py st.
Proof.
  unfold sfmt_shuffle_py2, sfmt_shuffle_py. cbv zeta. rewrite first_same, second_same.
  rewrite (for_range_same (fun k st => sfmt_py2_loop1 (8 + 4 * k) st) (fun k st => sfmt_py_loop1 (8 + 4 * k) st)) by (intros; apply loop1_same).
  apply for_range_same. intros; apply loop2_same.
Qed.

(** ** The constructor *)
Lemma wild_np1 t method encounter lead game tid sid :
  wild_new_np NumPy_1 t (PyInt method) (PyInt encounter) (PyInt lead) (PyInt game) (PyInt tid) (PyInt sid) =
  Ok (wild_new t method encounter lead game tid sid).
Proof.
  unfold wild_new_np. cbn [cast op rbind value]. change (2 ^ 8) with 256. change (2 ^ 16) with 65536. unfold wild_new, w8, w16.
  destruct (N.land (game mod 256) Game_EMERALD =? 0); cbn [negb rbind value]; reflexivity.
Qed.
Lemma cast2 w n : cast NumPy_2 w (PyInt n) = if n <? 2 ^ w then Ok (UInt w n) else Raise OverflowError.
Proof. reflexivity. Qed.
Lemma emerald_flag game : game < 256 -> N.land game Game_EMERALD mod 256 = N.land game Game_EMERALD.
Proof.
  intros H. apply N.mod_small. apply N.le_lt_trans with Game_EMERALD; [|reflexivity]. rewrite N.land_comm.
  unfold Game_EMERALD. change 4 with (2 ^ 2). apply N.ldiff_le. apply N.bits_inj. intros i.
  rewrite N.ldiff_spec, N.land_spec, N.bits_0. destruct (N.testbit (2 ^ 2) i), (N.testbit game i); reflexivity.
Qed.
Lemma wild_np2 t method encounter lead game tid sid :
  method < 256 -> encounter < 256 -> game < 256 -> (N.testbit game 2 = true -> lead < 256) -> N.lxor tid sid < 65536 ->
  wild_new_np NumPy_2 t (PyInt method) (PyInt encounter) (PyInt lead) (PyInt game) (PyInt tid) (PyInt sid) =
  Ok (wild_new t method encounter lead game tid sid).
Proof.
  intros Hm He Hg Hl Hx. unfold wild_new_np. rewrite !cast2. change (2 ^ 8) with 256.
  rewrite (proj2 (N.ltb_lt _ _) Hm), (proj2 (N.ltb_lt _ _) He), (proj2 (N.ltb_lt _ _) Hg). cbn [rbind op value].
  change (2 ^ 8) with 256. change (Game_EMERALD <? 256) with true. cbn [rbind value]. rewrite (emerald_flag game Hg).
  rewrite cast2. change (2 ^ 16) with 65536. rewrite (proj2 (N.ltb_lt _ _) Hx). cbn [rbind value].
  unfold wild_new. assert (W8 : forall x, x < 256 -> w8 x = x) by (intros; now apply N.mod_small).
  rewrite (W8 _ Hm), (W8 _ He), (W8 _ Hg). assert (W16 : w16 (N.lxor tid sid) = N.lxor tid sid) by now apply N.mod_small. rewrite W16.
  change (Lead_NONE <? 256) with true. cbn [rbind value].
  destruct (N.land game Game_EMERALD =? 0) eqn:E; cbn [negb rbind value]; [reflexivity|].
  assert (B : N.testbit game 2 = true).
  { destruct (N.testbit game 2) eqn:T; [reflexivity|]. exfalso. apply N.eqb_neq in E. apply E. apply N.bits_inj. intros i.
    rewrite N.land_spec, N.bits_0. unfold Game_EMERALD. change 4 with (2 ^ 2). rewrite N.pow2_bits_eqb.
    destruct (2 =? i) eqn:I; [|apply andb_false_r]. apply N.eqb_eq in I. subst i. now rewrite T. }
  rewrite (proj2 (N.ltb_lt _ _) (Hl B)). cbn [rbind value]. now rewrite (W8 _ (Hl B)).
Qed.
Lemma wild_np2_refuses t method encounter game lead tid sid :
  256 <= method \/ 256 <= encounter \/ 256 <= game ->
  wild_new_np NumPy_2 t (PyInt method) (PyInt encounter) lead (PyInt game) tid sid = Raise OverflowError.
Proof.
  intros H. unfold wild_new_np. rewrite !cast2. change (2 ^ 8) with 256.
  destruct (method <? 256) eqn:M; cbn [rbind]; [|reflexivity].
  destruct (encounter <? 256) eqn:E; cbn [rbind]; [|reflexivity].
  destruct (game <? 256) eqn:G; cbn [rbind]; [|reflexivity].
  apply N.ltb_lt in M, E, G. lia.
Qed.
Lemma later_games_refused t method encounter lead game tid sid :
  outside Game games_3 game -> ~ In game [0; 32; 64] ->
  wild_new_np NumPy_2 t (PyInt method) (PyInt encounter) lead (PyInt game) tid sid = Raise OverflowError.
Proof.
  intros (name & Hin & Hno) Hg. apply wild_np2_refuses. right. right.
  assert (F : forallb (fun m => existsb (String.eqb (fst m)) games_3 || existsb (N.eqb (snd m)) [0; 32; 64] || (256 <=? snd m)) Game = true)
    by (vm_compute; exact eq_refl).
  rewrite forallb_forall in F. specialize (F _ Hin). cbn [fst snd] in F. apply orb_prop in F. destruct F as [F|F]; [|now apply N.leb_le].
  exfalso. apply orb_prop in F. destruct F as [E|E]; apply existsb_exists in E; destruct E as (x & Hx & Ex).
  - apply String.eqb_eq in Ex. apply Hno. now rewrite Ex.
  - apply N.eqb_eq in Ex. apply Hg. now rewrite Ex.
Qed.
