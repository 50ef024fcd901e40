(** Reading spawners and outbreaks from a trie, as Proofs/FbsFast.v does for the encounter
    tables. *)
From Coq Require Import NArith ZArith List Bool.
From Verif Require Import Base.Word Model.Flatbuf Model.FbsLA Model.Trie Proofs.FbsFast.
Import ListNotations.
Open Scope N_scope.

Section Fast.
Variable get : nat -> N -> res N.
Definition fid (pad : N) (offset : N) : res (option Z) :=
  rbind (fnew get (Some offset)) (fun o => rmap fst (finit (fint get U64 None) (fbump o pad))).
Definition fvec3f (offset : N) : res vec3f :=
  rbind (fnew get (Some offset)) (fun o =>
  rbind (finit (ffloat get F32 None) o) (fun '(x, o) =>
  rbind (finit (ffloat get F32 None) o) (fun '(y, o) =>
  rmap (fun '(z, o) => mkVec3 x y z) (finit (ffloat get F32 None) o)))).
Definition fplacement (offset : N) : res (option vec3f) :=
  rbind (fnew get (Some offset)) (fun o => rmap fst (finit (fobject get fvec3f None) (fbump o 7))).
Definition fspawner (offset : N) : res spawner :=
  rbind (fnew get (Some offset)) (fun o =>
  rbind (finit (fint get U64 None) o) (fun '(id, o) =>
  rbind (finit (fint get U64 None) o) (fun '(group, o) =>
  rbind (finit (farray get fplacement) o) (fun '(placements, o) =>
  rbind (first placements) (fun coordinates =>
  let o := fbump o 4 in
  rbind (finit (fint get I32 None) o) (fun '(min_count, o) =>
  rbind (finit (fint get I32 None) o) (fun '(max_count, o) =>
  let o := fbump o 1 in
  rbind (finit (fenum get I8 to_bool None) o) (fun '(mass_outbreak, o) =>
  rbind (finit (fenum get I8 to_bool None) o) (fun '(water, o) =>
  rbind (finit (fenum get I8 to_bool None) o) (fun '(sky, o) =>
  let o := fbump o 7 in
  rbind (finit (farray get (fid 0)) o) (fun '(tables, o) =>
  rmap (mkSpawner id group coordinates min_count max_count mass_outbreak water sky)
    (first tables)))))))))))).
Definition fgroup (offset : N) : res group8a :=
  rbind (fnew get (Some offset)) (fun o =>
  rbind (finit (fint get U64 None) o) (fun '(hash, o) =>
  rbind (finit (farray get (fid 7)) o) (fun '(waves, o) =>
  rmap (fun '(f, o) => mkGroup8a hash waves f) (finit (fint get U64 None) o)))).
Definition flottery (offset : N) : res lottery :=
  rbind (fnew get (Some offset)) (fun o =>
  rbind (finit (fint get U64 None) o) (fun '(hash, o) =>
  rbind (finit (farray get (fid 0)) o) (fun '(common, o) =>
  rbind (finit (farray get (fid 0)) o) (fun '(rare_1, o) =>
  rmap (fun '(rare_2, o) => mkLottery hash common rare_1 rare_2 (common ++ rare_1 ++ rare_2))
    (finit (farray get (fid 0)) o))))).
End Fast.

Section Agree.
Variables (buf : list N) (get : nat -> N -> res N).
Hypothesis Hget : forall w off, unpack_from w buf off = get w off.
Ltac start := match goal with |- rbind _ _ = _ => idtac end; rewrite (new_ok buf get Hget), rbind_rmap; apply rbind_ext; intros o.
Ltac one := rewrite rbind_rmap; apply rbind_ext; let x := fresh "x" in let o := fresh "o" in intros [x o]; cbn [emb2 fst snd].
Ltac last := rewrite rmap_rmap; apply rmap_ext; now intros [? ?].

Lemma init_float_ok w d o : read_init_float w d (emb buf o) = rmap (emb2 buf) (finit (ffloat get w d) o).
Proof. exact (init_ok buf _ _ o (float_ok buf get Hget w d)). Qed.
Lemma bump_0 o : fbump o 0 = o.
Proof. destruct o as [p f c]. unfold fbump. cbn. now rewrite N.add_0_r. Qed.
Lemma fid0_ok q : spawner_f20_new buf q = fid get 0 q.
Proof. unfold spawner_f20_new, fid. start. rewrite bump_0, (init_int_ok buf get Hget). last. Qed.
Lemma fid0_ok' q : lottery_detail_new buf q = fid get 0 q.
Proof. exact (fid0_ok q). Qed.
Lemma fid7_ok q : second_wave_new buf q = fid get 7 q.
Proof. unfold second_wave_new, fid. start. cbv zeta. rewrite padding_ok, (init_int_ok buf get Hget). last. Qed.
Lemma vec3f_ok q : vec3f_new buf q = fvec3f get q.
Proof. unfold vec3f_new, fvec3f. start. rewrite init_float_ok. one. rewrite init_float_ok. one. rewrite init_float_ok. last. Qed.
Lemma placement_ok q : placement_new buf q = fplacement get q.
Proof.
  unfold placement_new, fplacement. start. cbv zeta. unfold read_init_vec3f.
  rewrite padding_ok, (init_object_ok buf get Hget _ _ _ _ vec3f_ok). last.
Qed.
Lemma spawner_ok q : spawner_new buf q = fspawner get q.
Proof.
  unfold spawner_new, fspawner. start. rewrite (init_int_ok buf get Hget). one. rewrite (init_int_ok buf get Hget). one.
  rewrite (init_array_ok buf get Hget _ _ _ placement_ok). one. apply rbind_ext. intros c. cbv zeta.
  rewrite padding_ok, (init_int_ok buf get Hget). one. rewrite (init_int_ok buf get Hget). one.
  rewrite padding_ok, (init_enum_ok buf get Hget). one. rewrite (init_enum_ok buf get Hget). one.
  rewrite (init_enum_ok buf get Hget). one. rewrite padding_ok, (init_array_ok buf get Hget _ _ _ fid0_ok). one. reflexivity.
Qed.
Lemma group_ok q : group_new buf q = fgroup get q.
Proof.
  unfold group_new, fgroup. start. rewrite (init_int_ok buf get Hget). one.
  rewrite (init_array_ok buf get Hget _ _ _ fid7_ok). one. rewrite (init_int_ok buf get Hget). last.
Qed.
Lemma lottery_ok q : lottery_new buf q = flottery get q.
Proof.
  unfold lottery_new, flottery. start. rewrite (init_int_ok buf get Hget). one.
  rewrite (init_array_ok buf get Hget _ _ _ fid0_ok'). one. rewrite (init_array_ok buf get Hget _ _ _ fid0_ok'). one.
  rewrite (init_array_ok buf get Hget _ _ _ fid0_ok'). last.
Qed.
Lemma spawner_table_ok : spawner_table buf =
  rmap (fun l => (l, dict_by opt_eqb sp_id l, dict_by opt_eqb sp_group l)) (froot get (fspawner get)).
Proof. exact (root_ok buf get Hget _ _ (fun l => (l, dict_by opt_eqb sp_id l, dict_by opt_eqb sp_group l)) spawner_ok). Qed.
Lemma group_table_ok : group_table buf = rmap (fun l => (l, dict_by opt_eqb gr_hash l)) (froot get (fgroup get)).
Proof. exact (root_ok buf get Hget _ _ (fun l => (l, dict_by opt_eqb gr_hash l)) group_ok). Qed.
Lemma lottery_table_ok : lottery_table buf = rmap (fun l => (l, dict_by opt_eqb lo_hash l)) (froot get (flottery get)).
Proof. exact (root_ok buf get Hget _ _ (fun l => (l, dict_by opt_eqb lo_hash l)) lottery_ok). Qed.
End Agree.
