(** What the strict [row] does to the second converter, and concrete cases for
    [P_RowRepaired]. *)
From Coq Require Import Lia.
From Verif Require Export IterRepaired ReadRepaired WriteRepaired RowRepairedFacts RowRepairedRound.
From Verif Require Export WriteRepairedFacts StdWitness IterLookWitness WriteRepairedWitness ReadRepairedWitness ConvWitness DebugWitness.
Open Scope Z_scope.
Open Scope list_scope.

Lemma conv_no_fixed_fp op eh : so_fixed_fp (conv_sfoptions op eh) = None.
Proof. unfold conv_sfoptions. destruct (_ =? _); reflexivity. Qed.

Lemma given_row md op f r nr : convert_row md op f r = Ok (RowOk nr) ->
  exists x, r_offsets nr = Some x /\ ro_ra x <> None /\
    ((exists o, dr_register r (arch_fp (op_arch op)) = ROffset o /\ ro_fp x = Some o) \/
     ((dr_register r (arch_fp (op_arch op)) = RSameValue \/ dr_register r (arch_fp (op_arch op)) = RUndefined) /\ ro_fp x = None)).
Proof.
  unfold convert_row, warn. intros H. destruct (dr_cfa r) as [reg offset|x].
  2:{ destruct (negb _); [discriminate|]. destruct (sub_u64 _ _ _); cbn [bind] in H; try discriminate. destruct (_ =? _); discriminate. }
  set (w := if negb (op_warnings op) then _ else _) in *.
  assert (Hw : w <> Ok (RowOk nr)).
  { unfold w. destruct (negb _); [discriminate|]. destruct (sub_u64 _ _ _); cbn [bind]; try discriminate. destruct (_ =? _); discriminate. }
  clearbody w. destruct (if reg =? _ then _ else _) as [base|]; [|contradiction].
  destruct (sub_u64 _ _ _) as [d| |]; cbn [bind] in H; try discriminate.
  destruct (negb (row_start_ok d)); [discriminate|]. destruct (negb (in_i32b offset)); [contradiction|].
  set (fpr := dr_register r (arch_fp (op_arch op))) in *. set (rar := dr_register r (arch_ra (op_arch op))) in *. clearbody fpr rar.
  destruct fpr; try contradiction; try (destruct (in_i32b _); try contradiction); destruct rar; try contradiction; try (destruct (in_i32b _); try contradiction).
  all: injection H as <-; eexists; (split; [reflexivity|]); cbn [ro_ra ro_fp]; (split; [discriminate|]); eauto.
Qed.

(** The converter leaves the FP offset out where RBP keeps its value, so that with the
    documented check it would be told so. *)
Theorem strict_converter md op eh f r nr b : fdb_reach b -> fb_options b = conv_sfoptions op eh ->
  convert_row md op f r = Ok (RowOk nr) -> snd (fdb_row_st b nr) = Ok tt ->
  ((exists o, dr_register r (arch_fp (op_arch op)) = ROffset o) /\ snd (fdb_row_strict b nr) = Ok tt) \/
  ((dr_register r (arch_fp (op_arch op)) = RSameValue \/ dr_register r (arch_fp (op_arch op)) = RUndefined) /\
   snd (fdb_row_strict b nr) = Err MissingFpOffset).
Proof.
  intros Hb Ho Hc Hr. destruct (given_row md op f r nr Hc) as (x & Ex & Er & Hf).
  apply (reach_row_accepts b nr Hb) in Hr. unfold row_conditions in Hr.
  repeat match goal with X : Forall _ (_ :: _) |- _ => inversion X; clear X; subst end. cbn [fst] in *.
  assert (HP : forall P : row_offsets -> Prop, P x -> forall o, r_offsets nr = Some o -> P o) by (intros P Px o Eo; congruence).
  destruct (strict_accepts b nr Hb) as (A1 & A2 & _).
  destruct Hf as [(o & Ef & Efp)|(Ef & Efp)]; [left; split; [eauto|]|right; split; [exact Ef|]].
  - apply A1. unfold strict_conditions. repeat (constructor; [cbn [fst]; first [assumption|apply HP; intros _; congruence]|]). constructor.
  - apply A2. unfold strict_conditions.
    eexists [_; _; _; _; _; _], _, [_]. split; [reflexivity|]. split.
    + intros X. specialize (X x Ex). unfold given_if_needed in X. rewrite Ho, conv_no_fixed_fp in X. apply X; [reflexivity|exact Efp].
    + repeat (constructor; [cbn [fst]; first [assumption|apply HP; intros _; congruence]|]). constructor.
Qed.

(** ** Cases *)

Theorem strict_case :
  fdb_reach blank /\ snd (fdb_row_st blank no_ra_row) = Ok tt /\ snd (fdb_row_st blank no_fp_row) = Ok tt /\
  snd (fdb_row_strict blank no_ra_row) = Err MissingRaOffset /\
  snd (fdb_row_strict blank no_fp_row) = Err MissingFpOffset /\
  snd (fdb_row_strict blank (row3 0 16 (-8) (-16))) = Ok tt /\
  snd (fdb_row_strict blank (row3 16 16 (-8) (-16))) = Err StartAddressOutsideFde /\
  snd (fdb_row_strict (fdb_new (options_fixed_ra (Some (-8)) options_new) 0x100 16) no_ra_row) = Ok tt /\
  snd (fdb_row_strict (fdb_new (options_fixed_ra (Some (-8)) options_new) 0x100 16) (row3 0 16 (-16) (-16))) = Err UnexpectedRaOffset.
Proof. split; [apply missing_accepted|]. vm_compute. repeat split. Qed.

Definition plain_fdb : fdb := fst (fdb_row_strict (fdb_new options_new 0x100 16) (row3 4 16 (-8) (-16))).
Definition checked_sfb : sfb := get_ok (sfb_new options_new) (sfb_fde (sfb_new options_new) (fdb_size_checked 2 (fdb_size_checked 8 plain_fdb))).
Lemma plain_checked : fdb_checked true plain_fdb.
Proof.
  apply (bc_row true (row3 4 16 (-8) (-16)) (fdb_new options_new 0x100 16)).
  - unfold row_typed, offsets_typed. cbn. in_range.
  - constructor; [apply or_new|in_range|in_range].
Qed.
Lemma checked_checked md : sfb_checked true md checked_sfb.
Proof.
  apply (sc_fde true md (sfb_new options_new) (fdb_size_checked 2 (fdb_size_checked 8 plain_fdb)));
    [apply sc_new, or_new| |vm_compute; reflexivity].
  apply bc_size; [in_range|]. apply bc_size; [in_range|]. exact plain_checked.
Qed.
Theorem strict_whole_case : fdb_checked true plain_fdb /\ rows_of plain_fdb = [row3 4 16 (-8) (-16)].
Proof. split; [exact plain_checked|vm_compute; reflexivity]. Qed.

Theorem strict_converter_case : exists nr nr',
  fdb_reach (fdb_new (conv_sfoptions amd sample) 0x1000 0x20) /\
  convert_row rel64 amd fn_prologue (amd_row 0x1000 0x1004 7 8 RSameValue) = Ok (RowOk nr) /\
  snd (fdb_row_st (fdb_new (conv_sfoptions amd sample) 0x1000 0x20) nr) = Ok tt /\
  snd (fdb_row_strict (fdb_new (conv_sfoptions amd sample) 0x1000 0x20) nr) = Err MissingFpOffset /\
  convert_row rel64 amd fn_prologue (amd_row 0x1004 0x1008 7 16 (ROffset (-16))) = Ok (RowOk nr') /\
  snd (fdb_row_strict (fdb_new (conv_sfoptions amd sample) 0x1000 0x20) nr') = Ok tt.
Proof.
  eexists. eexists. split.
  - apply br_new; [apply opts_reached|in_range|in_range].
  - split; [vm_compute; reflexivity|]. split; [vm_compute; reflexivity|]. split; [vm_compute; reflexivity|]. split; vm_compute; reflexivity.
Qed.

(** A checked [size] refuses 2 and accepts 8. *)
Theorem checked_case : forall e,
  sfb_checked true rel64 checked_sfb /\ map fb_size (fdes_of checked_sfb) = [8] /\ map fb_size (fdes_of shrunk_sfb) = [2] /\
  (exists bs, build rel64 e checked_sfb = Ok bs /\ rust_slice rel64 bs) /\
  load rel64 e (shrunk e) = Ok (shrunk_sf e) /\
  map (all_fres rel64 e) (all_fdes (shrunk_sf e)) = [Panic] /\
  exists fr, map (all_fres_with tail_only rel64 e) (all_fdes (shrunk_sf e)) = [Ok [inl fr]] /\ fre_start_address_offset fr = 4.
Proof.
  intros e. split; [apply checked_checked|]. split; [vm_compute; reflexivity|]. split; [vm_compute; reflexivity|]. split.
  - exists (get_ok [] (build rel64 e checked_sfb)). destruct e; (split; [vm_compute; reflexivity|unfold rust_slice; vm_compute; reflexivity]).
  - split; [destruct e; vm_compute; reflexivity|]. split; [destruct e; vm_compute; reflexivity|].
    destruct e.
    + match goal with |- exists fr, ?t = _ /\ _ => match eval vm_compute in t with [Ok [inl ?x]] => exists x end end. vm_compute. auto.
    + match goal with |- exists fr, ?t = _ /\ _ => match eval vm_compute in t with [Ok [inl ?x]] => exists x end end. vm_compute. auto.
Qed.

Definition mended (e : endian) (s : sfb) : bytes := get_ok [] (build_repaired rel64 e s).
Theorem round_case : forall e,
  sfb_reach rel64 tie_sfb /\ Forall rows_inside (fdes_of tie_sfb) /\ build_repaired rel64 e tie_sfb = Ok (mended e tie_sfb) /\
  rust_slice rel64 (mended e tie_sfb) /\
  intended (sb_options tie_sfb) tie_row = Unwind Sp false (Some (-128)) (Some 128) None /\
  only_row e (mended e tie_sfb) = Some (Unwind Sp false (Some (-128)) (Some 128) None).
Proof.
  intros e. destruct (sfb_sized_reach rel64 tie_sfb (tie_sized rel64)) as [HR HI].
  split; [exact HR|]. split; [exact HI|]. destruct e; (split; [vm_compute; reflexivity|]; split; [unfold rust_slice; vm_compute; reflexivity|]; split; vm_compute; reflexivity).
Qed.

Theorem gap_case : sfb_reach dev64 gap_sfb /\ ~ overlapping gap_sfb /\ ~ too_large gap_sfb /\ build dev64 LE gap_sfb = Panic /\
  build_with gap_only dev64 LE gap_sfb = emitted (build rel64 LE gap_sfb).
Proof.
  destruct gap_stops_build as (G1 & G2 & G3 & G4 & _). repeat (split; [assumption|]). vm_compute. reflexivity.
Qed.

Theorem iter_says_case : forall e,
  sfb_reach dev64 mixed_sfb /\ build_repaired dev64 e mixed_sfb = Ok (mixed_bytes e) /\ wf_mode dev64 /\ rust_slice dev64 (mixed_bytes e) /\
  load dev64 e (mixed_bytes e) = Ok (mixed_sf e) /\
  lib_says_with all_rfixes dev64 e (mixed_sf e) 0x41d KeyB second_row /\
  lib_says_with all_rfixes dev64 e (mixed_sf e) 0x508 KeyA (Unwind Sp false (Some (-128)) (Some 128) None).
Proof.
  intros e. pose proof (mixed_reach dev64) as HR.
  assert (HB : build_repaired dev64 e mixed_sfb = Ok (mixed_bytes e)) by (destruct e; vm_compute; reflexivity).
  assert (Hs : rust_slice dev64 (mixed_bytes e)) by (unfold rust_slice; destruct e; vm_compute; reflexivity).
  assert (HL : load dev64 e (mixed_bytes e) = Ok (mixed_sf e)) by (destruct e; vm_compute; reflexivity).
  assert (Hm : wf_mode dev64) by (right; reflexivity).
  repeat (split; [assumption|]).
  split; apply (repaired_iter_says all_rfixes dev64 dev64 e mixed_sfb _ HR HB Hm Hs (or_introl eq_refl) _ eq_refl HL);
    [asked_key stub_f (row3 4 16 (-8) (-16))|asked_key tie_f tie_row].
Qed.

Theorem text_case : load rel64 LE (shrunk LE) = Ok (shrunk_sf LE) /\ rust_slice rel64 (shrunk LE) /\
  section_text false some_texts rel64 LE (shrunk_sf LE) = Panic /\
  exists text, section_text_with tail_only false some_texts rel64 LE (shrunk_sf LE) = Ok text.
Proof.
  destruct (shrunk_debug_panics LE) as (H1 & H2 & H3). split; [exact H1|]. split; [exact H2|]. split; [exact H3|].
  apply (text_total tail_only false some_texts rel64 LE (shrunk LE) (shrunk_sf LE) eq_refl wf_rel64 H2 H1).
Qed.
