(** Concrete cases for [P_IterRepaired]: the sections that refute the claims of /repo. *)
From Verif Require Export IterRepairedBuilt.
From Verif Require Export Repaired ReadRepaired ReadRepairedSpec ReadRepairedFacts RepairedFacts LookupFacts LoadFacts ConvProps StdSpec ReadSpec TripFacts
  ReadWitness DebugWitness LocalWitness LookupWitness ProfileWitness.
From Coq Require Import Lia.
Open Scope Z_scope.
Open Scope list_scope.

Lemma path_case e :
  let run rp := map (option_map (rows_seen rel64 e)) (fst (fdi_run_with rp (fdes (demo_sf e)) [OpNth 1])) in
  let runs rp := map (option_map (rows_seen rel64 e)) (fst (fdi_run_with rp (fdes (demo_sf e)) [OpNextBack; OpNext; OpNext])) in
  load rel64 e (demo e) = Ok (demo_sf e) /\ rust_slice rel64 (demo e) /\
  run rows_only = [Some (rows_seen rel64 e (nth_entry (demo_sf e) 1))] /\ run no_repairs <> run rows_only /\
  runs rows_only = [Some (rows_seen rel64 e (nth_entry (demo_sf e) 1)); Some (rows_seen rel64 e (nth_entry (demo_sf e) 0)); None] /\
  runs no_repairs <> runs rows_only.
Proof.
  cbv zeta. split; [apply demo_loads|]. split; [apply demo_slice, wf_rel64|].
  split; [destruct e; vm_compute; reflexivity|]. split; [destruct e; vm_compute; discriminate|].
  split; [destruct e; vm_compute; reflexivity|]. destruct e; vm_compute; discriminate.
Qed.

Lemma rows_case e :
  load rel64 e (shrunk e) = Ok (shrunk_sf e) /\ In (nth_entry (shrunk_sf e) 0) (all_fdes (shrunk_sf e)) /\
  fde_ok (en_fde (nth_entry (shrunk_sf e) 0)) /\
  all_fres rel64 e (nth_entry (shrunk_sf e) 0) = Panic /\
  exists good, all_fres_with tail_only rel64 e (nth_entry (shrunk_sf e) 0) = Ok (map inl good) /\ length good = 1%nat.
Proof.
  assert (HL : load rel64 e (shrunk e) = Ok (shrunk_sf e)) by (destruct e; vm_compute; reflexivity).
  assert (HI : In (nth_entry (shrunk_sf e) 0) (all_fdes (shrunk_sf e))) by (destruct e; vm_compute; left; reflexivity).
  split; [exact HL|]. split; [exact HI|]. split.
  { destruct e; unfold fde_ok; vm_compute; repeat split; discriminate. }
  split; [destruct e; vm_compute; reflexivity|].
  destruct e; eexists [_]; (split; [vm_compute; reflexivity|reflexivity]).
Qed.

Lemma demo_laid_out e : laid_out e (demo e).
Proof. destruct (built_sorted rel64 e demo_sfb (demo e) (demo_reach rel64) (demo_built e)) as (H & HD & _). unfold laid_out. rewrite H. exact HD. Qed.

Lemma function_case e : load rel64 e (demo e) = Ok (demo_sf e) /\ rust_slice rel64 (demo e) /\ laid_out e (demo e) /\
  fde_for_address rel64 (demo_sf e) 0x104 = Ok None /\
  fde_for_address_whole (RFixes (Repairs true true false true) false false) rel64 (demo_sf e) 0x104 = Ok (Some (nth_entry (demo_sf e) 0)) /\
  fde_for_address_whole (RFixes (Repairs true true false true) false false) rel64 (demo_sf e) 0x204 = Ok (Some (nth_entry (demo_sf e) 1)) /\
  fde_for_address_whole (RFixes (Repairs true true false true) false false) rel64 (demo_sf e) 0x180 = Ok None.
Proof.
  split; [apply demo_loads|]. split; [apply demo_slice, wf_rel64|]. split; [apply demo_laid_out|].
  repeat split; destruct e; vm_compute; reflexivity.
Qed.

Lemma own_case e : load rel64 e (demo e) = Ok (demo_sf e) /\
  fde_for_address_whole (RFixes rows_only false false) rel64 (demo_sf e) 0x204 = Ok (Some (nth_entry (demo_sf e) 1)) /\
  fde_for_address rel64 (demo_sf e) 0x204 <> Ok (Some (nth_entry (demo_sf e) 1)).
Proof. split; [apply demo_loads|]. split; destruct e; vm_compute; [reflexivity|reflexivity|discriminate|discriminate]. Qed.

Definition end_only : rfixes := RFixes (Repairs false false false true) false false.
Lemma outside_case e : fde_ok (en_fde (nth_entry (demo_sf e) 0)) /\ in_i32 0x110 /\
  ~ in_range (en_start_address (nth_entry (demo_sf e) 0)) (en_size (nth_entry (demo_sf e) 0)) 0x110 /\
  get_fre_within true end_only rel64 e (nth_entry (demo_sf e) 0) 0x110 = Ok None /\
  (exists fr, get_fre_within false end_only rel64 e (nth_entry (demo_sf e) 0) 0x110 = Ok (Some fr)) /\
  (exists fr, get_fre_within true end_only rel64 e (nth_entry (demo_sf e) 0) 0x10f = Ok (Some fr)).
Proof.
  split; [destruct e; unfold fde_ok; vm_compute; repeat split; discriminate|]. split; [vm_compute; split; discriminate|].
  split; [destruct e; vm_compute; intros [_ Hc]; discriminate Hc|].
  split; [destruct e; vm_compute; reflexivity|]. split; destruct e; eexists; vm_compute; reflexivity.
Qed.

Definition pick_only : rfixes := RFixes (Repairs false false true true) false false.
Lemma effect_case e : exists r1 r2,
  in_range (en_start_address (nth_entry (demo_sf e) 0)) (en_size (nth_entry (demo_sf e) 0)) 0x108 /\
  all_fres_with pick_only rel64 e (nth_entry (demo_sf e) 0) = Ok (map inl [r1; r2]) /\ ascending [r1; r2] /\
  lookup_offset_with pick_only (nth_entry (demo_sf e) 0) (0x108 - en_start_address (nth_entry (demo_sf e) 0)) = Some 8 /\
  fre_start_address_offset r1 = 0 /\ fre_start_address_offset r2 = 4 /\
  get_fre_for_address rel64 e (nth_entry (demo_sf e) 0) 0x108 = Ok (Some r1) /\
  get_fre_within false pick_only rel64 e (nth_entry (demo_sf e) 0) 0x108 = Ok (Some r2).
Proof.
  assert (HX : exists r1 r2, all_fres_with pick_only rel64 e (nth_entry (demo_sf e) 0) = Ok (map inl [r1; r2]) /\
    fre_start_address_offset r1 = 0 /\ fre_start_address_offset r2 = 4 /\
    get_fre_for_address rel64 e (nth_entry (demo_sf e) 0) 0x108 = Ok (Some r1) /\
    get_fre_within false pick_only rel64 e (nth_entry (demo_sf e) 0) 0x108 = Ok (Some r2)).
  { destruct e; match goal with |- exists r1 r2, ?t = _ /\ _ => match eval vm_compute in t with Ok [inl ?a; inl ?b] => exists a, b end end;
      repeat split; vm_compute; reflexivity. }
  destruct HX as (r1 & r2 & H1 & H2 & H3 & H4 & H5). exists r1, r2.
  split; [destruct e; vm_compute; split; [discriminate|reflexivity|discriminate|reflexivity]|]. split; [exact H1|].
  split; [repeat constructor; lia|]. split; [destruct e; vm_compute; reflexivity|]. auto.
Qed.

Lemma text_case :
  load rel64 LE (hidden x08) = Ok (hidden_sf x08) /\ load rel64 LE (hidden x09) = Ok (hidden_sf x09) /\
  rust_slice rel64 (hidden x08) /\ rust_slice rel64 (hidden x09) /\ plain_texts some_texts /\
  (exists text, section_text false some_texts rel64 LE (hidden_sf x08) = Ok text /\ section_text false some_texts rel64 LE (hidden_sf x09) = Ok text) /\
  lookup rel64 LE (hidden_sf x08) 0x1000 <> lookup rel64 LE (hidden_sf x09) 0x1000 /\
  exists u, lookup_with rows_only rel64 LE (hidden_sf x08) 0x1000 = Ok (Some u) /\
    lookup_with rows_only rel64 LE (hidden_sf x09) 0x1000 = Ok (Some u) /\ uw_cfa u = Some 16.
Proof.
  destruct hidden_case as (H1 & H2 & H3 & H4 & H5 & _). split; [exact H1|]. split; [exact H2|]. split; [exact H3|]. split; [exact H4|].
  split; [exact some_texts_plain|]. split; [exact H5|]. split; [vm_compute; discriminate|].
  exists (Unwind Sp false (Some 16) (Some (-8)) None). repeat split; vm_compute; reflexivity.
Qed.

Lemma damage_case :
  sfb_reach rel64 demo_sfb /\ build rel64 LE demo_sfb = Ok (demo LE) /\ rust_slice rel64 (demo LE) /\
  damaged_rows (fdes_of demo_sfb) 0 (demo LE) (hurt0 LE) /\ nth_error (fdes_of demo_sfb) 0 <> None /\
  load rel64 LE (demo LE) = Ok (demo_sf LE) /\ load rel64 LE (hurt0 LE) = Ok (sf_of LE (hurt0 LE)) /\
  lookup rel64 LE (demo_sf LE) 0x204 <> lookup rel64 LE (sf_of LE (hurt0 LE)) 0x204 /\
  exists u, lookup_with rows_only rel64 LE (demo_sf LE) 0x204 = Ok (Some u) /\
    lookup_with rows_only rel64 LE (sf_of LE (hurt0 LE)) 0x204 = Ok (Some u).
Proof.
  split; [apply demo_reach|]. split; [apply demo_built|]. split; [apply demo_slice, wf_rel64|]. split; [apply hurt0_rows|].
  split; [vm_compute; discriminate|]. split; [apply demo_loads|]. split; [exact (proj1 (hurt_loads LE))|].
  split; [vm_compute; discriminate|].
  exists (Unwind Sp false (Some 24) (Some (-8)) (Some (-16))). split; vm_compute; reflexivity.
Qed.

Lemma built_case e : eh_typed (short_long 8) /\ dwarf2sframe rel64 amd (short_long 8) = Ok (sl_sfb 8) /\
  build rel64 e (sl_sfb 8) = Ok (sl_bytes e 8) /\ rust_slice rel64 (sl_bytes e 8) /\ load rel64 e (sl_bytes e 8) = Ok (sl_sf e 8) /\
  lookup rel64 e (sl_sf e 8) 0x2010 = Err (inr (InvalidFreOffsetCount 4)) /\
  exists b r u, in_effect_at (sl_sfb 8) 0x2010 b r /\ fb_rep_size b = None /\
    lookup_key lib_rfixes rel64 e (sl_sf e 8) 0x2010 = Ok (Some (fb_pauth b, u)) /\ uw_cfa u = Some 8.
Proof.
  destruct (converted_lookup_fails e) as (H1 & H2 & H3 & H4 & _ & H5). split; [exact H1|]. split; [exact H2|]. split; [exact H3|].
  split; [destruct e; vm_compute; reflexivity|]. split; [exact H4|]. split; [exact (Forall_inv H5)|].
  destruct (nth_error (fdes_of (sl_sfb 8)) 1) as [b|] eqn:Hb; [|vm_compute in Hb; discriminate Hb].
  destruct (nth_error (rows_of b) 0) as [r|] eqn:Hr; [|vm_compute in Hb; apply some_inj in Hb; subst b; vm_compute in Hr; discriminate Hr].
  exists b, r, (Unwind Sp false (Some 8) (Some (-8)) None).
  assert (HI : In b (fdes_of (sl_sfb 8))) by exact (nth_error_In _ _ Hb).
  vm_compute in Hb. apply some_inj in Hb. subst b. vm_compute in Hr. apply some_inj in Hr. subst r.
  split; [split; [exact HI|]; split; [vm_compute; split; [discriminate|reflexivity]|]|].
  { split; [vm_compute; left; reflexivity|]. split; [vm_compute; discriminate|].
    intros r' Hr'. vm_compute in Hr'. destruct Hr' as [<-|[<-|[]]] ; intros Hle; vm_compute in Hle |- *; congruence. }
  split; [reflexivity|]. split; [destruct e; vm_compute; reflexivity|reflexivity].
Qed.

Lemma library_case e :
  build rel64 e three_sfb = Ok (section e three_sfb) /\ load rel64 e (section e three_sfb) = Ok (three_sf e) /\
  rust_slice rel64 (section e three_sfb) /\ laid_out e (section e three_sfb) /\
  lookup (with_library BsLeftRight rel64) e (three_sf e) 0x100 <> lookup rel64 e (three_sf e) 0x100 /\
  exists k u, lookup_key (RFixes (Repairs true true false true) false false) (with_library BsLeftRight rel64) e (three_sf e) 0x100 = Ok (Some (k, u)) /\
    lookup_key (RFixes (Repairs true true false true) false false) rel64 e (three_sf e) 0x100 = Ok (Some (k, u)).
Proof.
  destruct (library_matters e) as (H1 & H2 & H3 & _ & _ & (u & H5) & H6). split; [exact H2|]. split; [exact H3|].
  split; [destruct e; vm_compute; reflexivity|].
  split. { destruct (built_sorted rel64 e _ _ (proj1 (sfb_sized_reach _ _ H1)) H2) as (H & HD & _). unfold laid_out. rewrite H. exact HD. }
  split. { change (with_library BsLeftRight rel64) with rel64old. rewrite H5, H6. discriminate. }
  exists KeyA, (Unwind Sp false (Some 16) (Some (-8)) (Some (-16))). destruct e; split; vm_compute; reflexivity.
Qed.

Lemma converted_reach md md' op eh s : eh_typed eh -> dwarf2sframe md op eh = Ok s -> sfb_reach md' s.
Proof.
  intros Ht H. pose proof (dwarf2sframe_converted _ _ _ _ Ht H) as [_ Ho Ha].
  apply sfb_sized_reach. destruct s as [o m]; cbn in *; subst o. eapply assembled_sized; [apply opts_reached|apply options_eq|exact Ha].
Qed.
Lemma order_case :
  build rel64 LE (sl_sfb 32) = Ok (sl_bytes LE 32) /\ build rel64 BE (sl_sfb 32) = Ok (sl_bytes BE 32) /\ sfb_reach rel64 (sl_sfb 32) /\
  rust_slice rel64 (sl_bytes LE 32) /\ load rel64 LE (sl_bytes LE 32) = Ok (sl_sf LE 32) /\ load rel64 BE (sl_bytes BE 32) = Ok (sl_sf BE 32) /\
  lookup rel64 LE (sl_sf LE 32) 0x2010 <> lookup rel64 BE (sl_sf BE 32) 0x2010 /\
  exists u, lookup_with rows_only rel64 LE (sl_sf LE 32) 0x2010 = Ok (Some u) /\ lookup_with rows_only rel64 BE (sl_sf BE 32) 0x2010 = Ok (Some u) /\
    uw_cfa u = Some 8.
Proof.
  split; [vm_compute; reflexivity|]. split; [vm_compute; reflexivity|].
  split.
  { assert (HT : eh_typed (short_long 32)) by (apply short_long_typed; lia).
    assert (HC : dwarf2sframe rel64 amd (short_long 32) = Ok (sl_sfb 32)) by (vm_compute; reflexivity).
    exact (converted_reach _ rel64 _ _ _ HT HC). }
  split; [vm_compute; reflexivity|]. split; [vm_compute; reflexivity|]. split; [vm_compute; reflexivity|].
  split; [vm_compute; discriminate|]. exists (Unwind Sp false (Some 8) (Some (-8)) None).
  repeat split; vm_compute; reflexivity.
Qed.
