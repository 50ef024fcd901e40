(** Loading areas with a quicker test for negative multipliers. *)
From Coq Require Import NArith ZArith List Bool Lia SpecFloat.
From Verif Require Import Base.Word Model.Flatbuf Model.FbsLA Model.EncounterLA Proofs.FbsFast.
Import ListNotations.
Open Scope N_scope.

(** -1.0 is the only negative multiplier in the files. *)
Definition fnegative (b : N) : bool :=
  if b <? 0x80000000 then false else if b =? 0xBF800000 then true else is_negative b.
Lemma fnegative_ok b : is_negative b = fnegative b.
Proof.
  unfold fnegative. destruct (N.ltb_spec b 0x80000000) as [H|H].
  - unfold is_negative, f32_bits. replace (2147483648 <=? b) with false by (symmetry; apply N.leb_gt; exact H).
    destruct (_ =? 255); [now destruct (_ =? 0)|]. destruct (_ =? 0).
    + now destruct (b mod 8388608).
    + now destruct (b mod 8388608 + 8388608).
  - destruct (N.eqb_spec b 0xBF800000) as [->|_]; reflexivity.
Qed.
Definition fwhere (a b : list N) : list N := map (fun '(x, y) => if fnegative x then y else x) (combine a b).
Lemma fwhere_ok a b : where_negative a b = fwhere a b.
Proof. unfold where_negative, fwhere. apply map_ext. intros [x y]. now rewrite fnegative_ok. Qed.
Definition fbake (slot species : list N) : list N :=
  let t := fwhere slot species in fwhere t (map (fun _ => one_f32) t).
Lemma fbake_ok a b : bake a b = fbake a b.
Proof. unfold bake, fbake. now rewrite !fwhere_ok. Qed.

Definition fload_slot (mults : multipliers) (infos : miscs) (t : etable) (s : slot8a) : res slotLA :=
  let key := (sl_species s, or_zero (sl_form s)) in
  rbind (store 16 (sl_species s)) (fun species =>
  rbind (store 8 (sl_gender s)) (fun gender =>
  rbind (store 8 (Some (or_zero (sl_form s)))) (fun form =>
  rbind (store 8 (Some (or_zero (sl_guaranteed_ivs s)))) (fun guaranteed_ivs =>
  rbind (store 8 (choose_level (sl_override_min s) (et_min_level t))) (fun min_level =>
  rbind (store 8 (choose_level (sl_override_max s) (et_max_level t))) (fun max_level =>
  rbind (store 32 (sl_base_probability s)) (fun base_probability =>
  rbind (if sl_is_alpha s then
           rbind (dict_get sf_eqb infos key) (fun i =>
           match mi_alpha_level_index i with
           | Some index => tuple_get ALPHA_LEVEL_BOOSTS_LA (index - 1)
           | None => Raise TypeError
           end)
         else Ok 0%Z) (fun boost =>
  rbind (match sl_eligibility s with Some e => Ok e | None => Raise AttributeError end) (fun e =>
  rmap (fun m => mkSlotLA species gender form
      (w8 (min_level + Z.to_N boost)) (w8 (max_level + Z.to_N boost))
      guaranteed_ivs base_probability (if sl_is_alpha s then 1 else 0)
      (fbake (el_time e) (mu_time m)) (fbake (el_weather e) (mu_weather m)))
    (dict_get sf_eqb mults key)))))))))).
Lemma fload_slot_ok mults infos t s : load_slot mults infos t s = fload_slot mults infos t s.
Proof.
  unfold load_slot, fload_slot. cbv zeta. do 9 (apply rbind_ext; intros ?). apply rmap_ext. intros m. now rewrite !fbake_ok.
Qed.
Fixpoint fload_slots (mults : multipliers) (infos : miscs) (t : etable) (l : list slot8a) : res (list slotLA) :=
  match l with
  | [] => Ok []
  | s :: l' => rbind (fload_slot mults infos t s) (fun x => rmap (cons x) (fload_slots mults infos t l'))
  end.
Lemma fload_slots_ok mults infos t l : load_slots mults infos t l = fload_slots mults infos t l.
Proof.
  induction l as [|s l IH]; [reflexivity|]. cbn [load_slots fload_slots]. rewrite fload_slot_ok.
  apply rbind_ext. intros x. now rewrite IH.
Qed.
Definition fload_area (mults : multipliers) (infos : miscs) (t : etable) : res areaLA :=
  rbind (store 64 (et_id t)) (fun id => rmap (mkAreaLA id) (fload_slots mults infos t (et_slots t))).
Fixpoint fload_areas (mults : multipliers) (infos : miscs) (l : list etable) (d : list (N * areaLA)) :
    res (list (N * areaLA)) :=
  match l with
  | [] => Ok d
  | t :: l' => rbind (fload_area mults infos t) (fun a => fload_areas mults infos l' (dict_set N.eqb d (al_table_id a) a))
  end.
Lemma fload_areas_ok mults infos l : forall d, load_areas mults infos l d = fload_areas mults infos l d.
Proof.
  induction l as [|t l IH]; intros d; [reflexivity|]. cbn [load_areas fload_areas]. unfold load_area, fload_area.
  rewrite (rbind_ext _ _ (fun id => rmap (mkAreaLA id) (fload_slots mults infos t (et_slots t)))).
  - apply rbind_ext. intros a. apply IH.
  - intros id. now rewrite fload_slots_ok.
Qed.
