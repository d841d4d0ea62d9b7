(** Computed cases for the whole-section properties. *)
From Verif Require Export LookupFacts.

(** *** C63 *)

(** The FP offset of [no_ra_row] given as the RA offset instead. *)
Definition no_fp_row : row := row_new Sp 0 {| ro_cfa := 16; ro_ra := Some (-16); ro_fp := None |}.
Definition nofp_sfb : sfb := one_row_sfb options_new no_fp_row.

Lemma nofp_sized md : sfb_sized md nofp_sfb.
Proof.
  apply (one_row_sized md no_fp_row (get_ok (fdb_new options_new 0 0) (add_rows (fdb_new options_new 0x100 16) [no_fp_row])));
    [|vm_compute; reflexivity|vm_compute; reflexivity].
  unfold row_typed, offsets_typed. cbn. unfold in_u32, u32_max, in_i32, i32_min, i32_max. lia.
Qed.

Theorem different_builders_same_bytes :
  sfb_sized rel64 amb_sfb /\ sfb_sized rel64 nofp_sfb /\
  build rel64 LE amb_sfb = build rel64 LE nofp_sfb /\ (exists bs, build rel64 LE amb_sfb = Ok bs) /\
  map (map (intended options_new)) (map rows_of (fdes_of amb_sfb)) = [[Unwind Sp false (Some 16) None (Some (-16))]] /\
  map (map (intended options_new)) (map rows_of (fdes_of nofp_sfb)) = [[Unwind Sp false (Some 16) (Some (-16)) None]].
Proof.
  split; [apply amb_sized|]. split; [apply nofp_sized|]. split; [vm_compute; reflexivity|].
  split; [eexists; vm_compute; reflexivity|]. vm_compute. auto.
Qed.

(** *** C64 *)

(** The smallest and the largest row. *)
Definition small_row : row := row_invalid 0.
Definition large_row : row := row3 32768 i32_max i32_min i32_min.
Definition sized_f (start : Z) (r : row) : fdb :=
  get_ok (fdb_new options_new 0 0) (add_rows (fdb_new options_new start 40000) [r]).
Definition sized_sfb (r : row) : sfb :=
  get_ok (sfb_new options_new) (add_fdes (sfb_new options_new) [sized_f 0x100 r]).

Lemma sized_reach md r : row_typed r -> fdb_row (fdb_new options_new 0x100 40000) r = Ok (sized_f 0x100 r) ->
  sfb_reach md (sized_sfb r).
Proof.
  intros Ht Hr. unfold sized_sfb.
  assert (Ho : fb_options (sized_f 0x100 r) = options_new).
  { unfold fdb_row, fdb_row_st in Hr. destruct (0x10000000 <=? r_start r); [discriminate|].
    destruct (match fb_rep_size (fdb_new options_new 0x100 40000) with Some rep => _ | None => _ end); [discriminate|].
    destruct (fb_size _ <=? r_start r); [discriminate|].
    destruct (normalise_offsets _ r); try discriminate. destruct (bt_get _ _); try discriminate.
    assert (HE : sized_f 0x100 r = fdb_set_fres (bt_insert (r_start a) a (fb_fres (fdb_new options_new 0x100 40000))) (fdb_new options_new 0x100 40000)) by congruence.
    rewrite HE. reflexivity. }
  cbn [add_fdes]. unfold sfb_fde. change (sb_options (sfb_new options_new)) with options_new.
  replace (options_eqb options_new (fb_options (sized_f 0x100 r))) with true by (symmetry; apply options_eqb_spec; congruence).
  cbn [bind get_ok]. eapply (sr_fde md (sfb_new options_new) (sized_f 0x100 r)); [apply sr_new, or_new| |].
  - assert (HE : sized_f 0x100 r = fst (fdb_row_st (fdb_new options_new 0x100 40000) r)).
    { unfold fdb_row in Hr. destruct (fdb_row_st (fdb_new options_new 0x100 40000) r) as [b [u| |]]; try discriminate. cbn. congruence. }
    rewrite HE. apply br_row; [exact Ht|]. apply br_new; [apply or_new| |]; unfold in_i32, in_u32, i32_min, i32_max, u32_max; lia.
  - unfold sfb_fde. change (sb_options (sfb_new options_new)) with options_new.
    replace (options_eqb options_new (fb_options (sized_f 0x100 r))) with true by (symmetry; apply options_eqb_spec; congruence).
    reflexivity.
Qed.

Lemma sizes_met :
  (sfb_reach rel64 (sized_sfb small_row) /\ exists bs, build rel64 LE (sized_sfb small_row) = Ok bs /\ zlen bs = 28 + 20 + 2) /\
  (sfb_reach rel64 (sized_sfb large_row) /\ exists bs, build rel64 LE (sized_sfb large_row) = Ok bs /\ zlen bs = 28 + 20 + 17).
Proof.
  split; split.
  - apply sized_reach; [|vm_compute; reflexivity]. split; [|exact I]. cbn. unfold in_u32, u32_max. lia.
  - eexists. split; [vm_compute; reflexivity|vm_compute; reflexivity].
  - apply sized_reach; [|vm_compute; reflexivity].
    apply row3_typed; unfold in_u32, in_i32, i32_min, i32_max, u32_max; lia.
  - eexists. split; [vm_compute; reflexivity|vm_compute; reflexivity].
Qed.

(** *** C65 *)

(** One function with two rows. *)
Definition single_sfb : sfb := get_ok (sfb_new options_new) (add_fdes (sfb_new options_new) [demo_f1]).
Definition single (e : endian) : bytes := get_ok [] (build rel64 e single_sfb).
Definition single_sf (e : endian) : sframe := get_ok dummy_sf (load rel64 e (single e)).

Lemma single_sized md : sfb_sized md single_sfb.
Proof.
  eapply (ss_fde md (sfb_new options_new) demo_f1); [apply ss_new, or_new|apply demo_f1_sized|vm_compute; reflexivity].
Qed.

Ltac in_effect_by_cases :=
  split; [vm_compute; auto|split; [vm_compute; discriminate|]];
  let r := fresh "r" in let Hr := fresh "Hr" in let Hs := fresh "Hs" in
  intros r Hr Hs; vm_compute in Hr; repeat (destruct Hr as [<-|Hr]; [vm_compute in Hs |- *; congruence|]); destruct Hr.

Theorem lookup_wrong_row :
  sfb_sized rel64 single_sfb /\ build rel64 LE single_sfb = Ok (single LE) /\ load rel64 LE (single LE) = Ok (single_sf LE) /\
  asked_at single_sfb 0x104 (Unwind Sp false (Some 16) (Some (-8)) (Some (-16))) /\
  lookup rel64 LE (single_sf LE) 0x104 = Ok (Some (Unwind Sp false (Some 8) (Some (-8)) (Some (-16)))).
Proof.
  split; [apply single_sized|]. split; [vm_compute; reflexivity|]. split; [vm_compute; reflexivity|]. split.
  - exists demo_f1, (row3 4 16 (-8) (-16)). split; [vm_compute; auto|]. split; [vm_compute; split; [discriminate|reflexivity]|].
    split; [|vm_compute; reflexivity]. in_effect_by_cases.
  - vm_compute. reflexivity.
Qed.

Theorem lookup_misses :
  sfb_sized rel64 demo_sfb /\ build rel64 LE demo_sfb = Ok (demo LE) /\ load rel64 LE (demo LE) = Ok (demo_sf LE) /\
  asked_at demo_sfb 0x100 (Unwind Sp false (Some 8) (Some (-8)) (Some (-16))) /\
  lookup rel64 LE (demo_sf LE) 0x100 = Ok None /\
  asked_at demo_sfb 0x202 (Unwind Sp false (Some 24) (Some (-8)) (Some (-16))) /\
  lookup rel64 LE (demo_sf LE) 0x202 = Ok (Some (Unwind Sp false (Some 8) (Some (-8)) (Some (-16)))).
Proof.
  split; [apply demo_sized|]. split; [vm_compute; reflexivity|]. split; [vm_compute; reflexivity|]. split; [|split; [|split]].
  - exists demo_f1, (row3 0 8 (-8) (-16)). split; [vm_compute; auto|]. split; [vm_compute; split; [discriminate|reflexivity]|].
    split; [|vm_compute; reflexivity]. in_effect_by_cases.
  - vm_compute. reflexivity.
  - exists demo_f2, (row3 2 24 (-8) (-16)). split; [vm_compute; auto|]. split; [vm_compute; split; [discriminate|reflexivity]|].
    split; [|vm_compute; reflexivity]. in_effect_by_cases.
  - vm_compute. reflexivity.
Qed.

(** *** C66 *)

(** A version 1 function whose rows are selected by masks: info byte 8, rows
    starting at 8, 4 and 0. *)
Definition mask_entry : entry :=
  Entry (FdeV1 (RawFde1 0x100 16 0 3 8))
    (map Zb [8; 2; 8;  4; 2; 16;  0; 2; 24]).
Definition mask_rows : list fre :=
  match all_fres rel64 LE mask_entry with Ok l => match good_rows l with Some g => g | None => [] end | _ => [] end.

Lemma mask_case :
  fde_ok (en_fde mask_entry) /\ v1_mask (en_fde mask_entry) /\
  all_fres rel64 LE mask_entry = Ok (map inl mask_rows) /\ map fre_start_address_offset mask_rows = [8; 4; 0] /\
  map (fun a => match get_fre_for_address rel64 LE mask_entry a with
                | Ok (Some fr) => Some (fre_start_address_offset fr) | _ => None end)
      [0x100; 0x103; 0x104; 0x107; 0x108; 0x10c] = map Some [0; 0; 4; 4; 8; 8].
Proof.
  split; [|split; [|split; [|split]]]; try (vm_compute; reflexivity).
  unfold fde_ok, in_i32, in_u32, in_u8. vm_compute. intuition discriminate.
Qed.

(** *** The remaining cases *)

Lemma demo_inside : Forall rows_inside (fdes_of demo_sfb).
Proof. exact (proj2 (sfb_sized_reach _ _ (demo_sized rel64))). Qed.
Lemma demo_made : forall b r, In b (fdes_of demo_sfb) -> In r (rows_of b) -> made_invalid r.
Proof.
  intros b r Hb Hr. vm_compute in Hb.
  repeat (destruct Hb as [<-|Hb]; [vm_compute in Hr; repeat (destruct Hr as [<-|Hr]; [unfold made_invalid; cbn; congruence|]); destruct Hr|]).
  destruct Hb.
Qed.

Lemma rebuilt_case :
  (Forall rows_inside (fdes_of demo_sfb) /\ (forall b r, In b (fdes_of demo_sfb) -> In r (rows_of b) -> made_invalid r) /\
   section_read rel64 LE (demo_sf LE) = Some demo_sfb) /\
  (exists bs sf, build rel64 LE amb_sfb = Ok bs /\ load rel64 LE bs = Ok sf /\
     section_read rel64 LE sf = Some nofp_sfb /\ nofp_sfb <> amb_sfb /\ build rel64 LE nofp_sfb = Ok bs).
Proof.
  split; [split; [exact demo_inside|split; [exact demo_made|vm_compute; reflexivity]]|].
  exists (section LE amb_sfb), (get_ok dummy_sf (load rel64 LE (section LE amb_sfb))).
  split; [vm_compute; reflexivity|]. split; [vm_compute; reflexivity|]. split; [vm_compute; reflexivity|].
  split; [intros H; vm_compute in H; discriminate|vm_compute; reflexivity].
Qed.

Lemma byte_order_case :
  sfb_reach rel64 demo_sfb /\ build rel64 LE demo_sfb = Ok (demo LE) /\ rust_slice dev32 (demo LE) /\
  build rel64 BE demo_sfb = Ok (demo BE) /\ demo LE <> demo BE /\
  load rel64 LE (demo LE) = Ok (demo_sf LE) /\ num_fdes (demo_sf LE) = 2.
Proof.
  split; [apply demo_reach|]. split; [apply demo_built|]. split; [apply demo_slice, wf_dev32|].
  split; [apply demo_built|]. split; [intros H; vm_compute in H; discriminate|].
  split; [apply demo_loads|vm_compute; reflexivity].
Qed.

Lemma injective_case :
  sfb_reach rel64 demo_sfb /\ sfb_reach rel64 single_sfb /\
  (forall b r, In b (fdes_of demo_sfb) -> In r (rows_of b) -> ~ tied r /\ ~ ambiguous (sb_options demo_sfb) r) /\
  build rel64 LE demo_sfb = Ok (demo LE) /\ build rel64 LE single_sfb = Ok (single LE) /\ demo LE <> single LE.
Proof.
  split; [apply demo_reach|]. split; [exact (proj1 (sfb_sized_reach _ _ (single_sized _)))|]. split; [|split; [vm_compute; reflexivity|split; [vm_compute; reflexivity|intros H; vm_compute in H; discriminate]]].
  intros b r Hb Hr.
  assert (HL : In r (concat (map rows_of (fdes_of demo_sfb)))) by (apply in_concat; exists (rows_of b); split; [now apply in_map|exact Hr]).
  vm_compute in HL. clear Hb Hr.
  repeat (destruct HL as [<-|HL]; [split; [intros (m & HD & HM & HI); vm_compute in HD; apply some_inj in HD; lia|
    intros (_ & x & Hx & Hn & _); cbn [r_offsets] in Hx; apply some_inj in Hx; subst x; discriminate Hn]|]).
  all: try destruct HL.
Qed.

Lemma single_case :
  sfb_reach rel64 single_sfb /\ fdes_of single_sfb = [demo_f1] /\ rows_inside demo_f1 /\ fb_rep_size demo_f1 <> Some 0 /\
  near rel64 single_sfb 0x102 /\ in_range (fb_start demo_f1) (fb_size demo_f1) 0x102 /\
  lookup rel64 LE (single_sf LE) 0x102 = Ok (Some (Unwind Sp false (Some 8) (Some (-8)) (Some (-16)))) /\
  asked_at single_sfb 0x102 (Unwind Sp false (Some 8) (Some (-8)) (Some (-16))) /\
  lookup rel64 LE (single_sf LE) 0xff = Ok None /\
  reached BsBase (zlen (fdes_of demo_sfb)) 0 = false.
Proof.
  split; [exact (proj1 (sfb_sized_reach _ _ (single_sized _)))|]. split; [vm_compute; reflexivity|].
  split; [exact (Forall_inv (l := [demo_f2]) demo_inside)|]. split; [vm_compute; discriminate|].
  split; [left; reflexivity|]. split; [vm_compute; split; [discriminate|reflexivity]|]. split; [vm_compute; reflexivity|].
  split; [|split; vm_compute; reflexivity].
  exists demo_f1, (row3 0 8 (-8) (-16)). split; [vm_compute; auto|]. split; [vm_compute; split; [discriminate|reflexivity]|].
  split; [|vm_compute; reflexivity]. in_effect_by_cases.
Qed.

Lemma merge_shrinks : exists b b',
  fdb_reach b /\ merge_adjacent_fres b = Ok b' /\ fde_fre_size b' < fde_fre_size b /\ 0 < fde_fre_size b'.
Proof.
  exists sample, (get_ok sample (merge_adjacent_fres sample)).
  split; [exact sample_reach|]. split; [vm_compute; reflexivity|]. split; vm_compute; reflexivity.
Qed.
