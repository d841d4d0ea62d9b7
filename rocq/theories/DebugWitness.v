(** Concrete debug output, and what it does not show. *)
From Coq Require Import String Ascii.
From Verif Require Export DebugFacts RawFacts.
Local Open Scope string_scope.

Definition some_texts : debug_texts :=
  DebugTexts (fun z => DTuple "U16" [int_debug z]) (fun z => DLeaf ("V" ++ fmt_dec z)) (fun z => DLeaf (some_abi z)).
Lemma some_texts_plain : plain_texts some_texts.
Proof.
  split; [|split]; intros z; cbn.
  - constructor; [a_word|discriminate|]. apply Forall_cons; [apply int_wordy|apply Forall_nil].
  - pose proof (int_wordy z) as H. inversion H as [s [H1 H2]| | |]; subst. constructor. split; [discriminate|].
    intros c Hc. split; [intros <-; discriminate Hc|now apply H2].
  - unfold some_abi. destruct (z =? 3)%Z; wordy_leaf.
Qed.

(** ** Section text *)

Definition sample_debug : string :=
  "SFrame { preamble: Preamble { magic: U16(57058), version: V2, flags: Flags(1) }, abi_arch: Amd64Little, " ++
  "fixed_fp_offset: None, fixed_ra_offset: Some(-8), num_fdes: 2, num_fres: 7, fdes: [" ++
  "FuncDescEntry { start_address: 0x1000, size: 32, fdetype: PcInc, pauth_key: A, rep_size: 0, num_fres: 4, start_fre_off: 0, fres: [" ++
  "Err(UnsupportedFreOffset(_Reserved3))] }, " ++
  "FuncDescEntry { start_address: 0x2000, size: 64, fdetype: PcInc, pauth_key: A, rep_size: 0, num_fres: 3, start_fre_off: 14, fres: [" ++
  "Ok(FrameRowEntry { start_address: 0, cfa_base_reg_id: Sp, mangled_ra_p: false, offsets: [16] }), " ++
  "Ok(FrameRowEntry { start_address: 6, cfa_base_reg_id: Sp, mangled_ra_p: false, offsets: [24] }), " ++
  "Ok(FrameRowEntry { start_address: 16, cfa_base_reg_id: Fp, mangled_ra_p: false, offsets: [] })] }] }".
Definition sample_seen : section_seen :=
  SectionSeen (DTuple "U16" [DLeaf "57058"]) (DLeaf "V2") 1 (DLeaf "Amd64Little") None (Some (-8)%Z) 2 7
    [FdeSeen 0x1000 32 PcInc KeyA (Some 0%Z) 4 0 [inr (UnsupportedFreOffset OffReserved3)];
     FdeSeen 0x2000 64 PcInc KeyA (Some 0%Z) 3 14
       [inl (SpecRow 0 true false [16%Z]); inl (SpecRow 6 true false [24%Z]); inl (SpecRow 16 false false [])]].
Definition sample_pretty : string := Eval vm_compute in get_ok "" (section_text true some_texts rel64 LE damaged_sf).
Lemma debug_case :
  load rel64 LE damaged = Ok damaged_sf /\ rust_slice rel64 damaged /\
  section_text false some_texts rel64 LE damaged_sf = Ok sample_debug /\ read_debug sample_debug = Some sample_seen /\
  section_text true some_texts rel64 LE damaged_sf = Ok sample_pretty /\ read_debug sample_pretty = Some sample_seen /\
  sample_pretty <> sample_debug.
Proof.
  split; [vm_compute; reflexivity|]. split; [vm_compute; reflexivity|]. split; [vm_compute; reflexivity|].
  split; [vm_compute; reflexivity|]. split; [vm_compute; reflexivity|]. split; [vm_compute; reflexivity|]. discriminate.
Qed.

Lemma shrunk_debug_panics e : load rel64 e (shrunk e) = Ok (shrunk_sf e) /\ rust_slice rel64 (shrunk e) /\
  section_text false some_texts rel64 e (shrunk_sf e) = Panic.
Proof. destruct e; vm_compute; auto. Qed.
Lemma debug_panics : ~ (forall alt dt md e bs sf, wf_mode md -> rust_slice md bs -> load md e bs = Ok sf -> section_text alt dt md e sf <> Panic).
Proof.
  intros H. destruct (shrunk_debug_panics LE) as (HL & HS & HP).
  exact (H false some_texts rel64 LE (shrunk LE) (shrunk_sf LE) wf_rel64 HS HL HP).
Qed.

(** ** What is not shown *)

(** A sorted section with one function whose row starts at byte 3 of the row
    sub-section.  Byte 2 is the offset of a row that no function has. *)
Definition hidden (b : byte) : bytes :=
  [xe2; xde; x02; x01; x03; x00; xf8; x00;  x01; x00; x00; x00;  x01; x00; x00; x00;
   x06; x00; x00; x00;  x00; x00; x00; x00;  x14; x00; x00; x00;
   x00; x10; x00; x00;  x20; x00; x00; x00;  x03; x00; x00; x00;  x01; x00; x00; x00;  x00; x00; x00; x00;
   x00; x03; b; x00; x03; x10].
Definition hidden_sf (b : byte) : sframe := get_ok dummy_sf (load rel64 LE (hidden b)).
Lemma hidden_case : load rel64 LE (hidden x08) = Ok (hidden_sf x08) /\ load rel64 LE (hidden x09) = Ok (hidden_sf x09) /\
  rust_slice rel64 (hidden x08) /\ rust_slice rel64 (hidden x09) /\
  (exists text, section_text false some_texts rel64 LE (hidden_sf x08) = Ok text /\ section_text false some_texts rel64 LE (hidden_sf x09) = Ok text) /\
  (exists u u', lookup rel64 LE (hidden_sf x08) 0x1000 = Ok (Some u) /\ lookup rel64 LE (hidden_sf x09) 0x1000 = Ok (Some u') /\
     uw_cfa u = Some 8%Z /\ uw_cfa u' = Some 9%Z).
Proof. vm_compute. repeat split; repeat eexists. Qed.
Lemma hidden_lookups : ~ (forall alt dt md e bs bs' sf sf' text, plain_texts dt -> wf_mode md -> rust_slice md bs -> rust_slice md bs' ->
  load md e bs = Ok sf -> load md e bs' = Ok sf' ->
  section_text alt dt md e sf = Ok text -> section_text alt dt md e sf' = Ok text ->
  forall a, in_i32 a -> lookup md e sf a = lookup md e sf' a).
Proof.
  intros H. destruct hidden_case as (L & L' & S & S' & (text & T & T') & (u & u' & U & U' & C & C')).
  specialize (H false some_texts rel64 LE _ _ _ _ text some_texts_plain wf_rel64 S S' L L' T T' 0x1000%Z ltac:(unfold in_i32; vm_compute; split; discriminate)).
  rewrite U, U' in H. apply ok_inj in H. apply some_inj in H. subst u'. rewrite C in C'. discriminate.
Qed.

(** Sections without functions that differ in their auxiliary header. *)
Definition with_aux (b : byte) : bytes :=
  [xe2; xde; x02; x01; x03; x00; xf8; x01;  x00; x00; x00; x00;  x00; x00; x00; x00;
   x00; x00; x00; x00;  x00; x00; x00; x00;  x00; x00; x00; x00; b].
Definition with_aux_sf (b : byte) : sframe := get_ok dummy_sf (load rel64 LE (with_aux b)).
Lemma aux_case : load rel64 LE (with_aux x01) = Ok (with_aux_sf x01) /\ load rel64 LE (with_aux x02) = Ok (with_aux_sf x02) /\
  rust_slice rel64 (with_aux x01) /\ rust_slice rel64 (with_aux x02) /\
  (exists text, section_text false some_texts rel64 LE (with_aux_sf x01) = Ok text /\ section_text false some_texts rel64 LE (with_aux_sf x02) = Ok text) /\
  raw_aux (with_aux_sf x01) = [x01] /\ raw_aux (with_aux_sf x02) = [x02].
Proof. vm_compute. repeat split; repeat eexists. Qed.
Lemma aux_hidden : ~ (forall alt dt md e bs bs' sf sf' text, plain_texts dt -> wf_mode md -> rust_slice md bs -> rust_slice md bs' ->
  load md e bs = Ok sf -> load md e bs' = Ok sf' ->
  section_text alt dt md e sf = Ok text -> section_text alt dt md e sf' = Ok text -> raw_aux sf = raw_aux sf').
Proof.
  intros H. destruct aux_case as (L & L' & S & S' & (text & T & T') & A & A').
  specialize (H false some_texts rel64 LE _ _ _ _ text some_texts_plain wf_rel64 S S' L L' T T').
  rewrite A, A' in H. discriminate.
Qed.

(** ** Info bytes *)

Lemma info_read_back alt i : in_u8 i ->
  exists t o, read_text (print_debug alt (fre_info_debug i)) = Some t /\
    read_info_of t = Some (bits 0 1 i =? 1, bits 1 4 i, o, bits 7 1 i =? 1)%Z /\ fre_offset_u8 o = bits 5 2 i.
Proof.
  intros Hi. exists (fre_info_debug i), (offset_size i). split; [apply text_back, info_wordy|]. rewrite info_read.
  unfold bits. change (2 ^ 0)%Z with 1%Z. change (2 ^ 1)%Z with 2%Z. change (2 ^ 4)%Z with 16%Z. change (2 ^ 5)%Z with 32%Z.
  change (2 ^ 2)%Z with 4%Z. change (2 ^ 7)%Z with 128%Z.
  rewrite (offset_size_arith i Hi), (offset_count_arith i Hi), (mangled_ra_p_arith i Hi). split; [|reflexivity].
  pose proof (cfa_base_reg_id_arith i Hi) as HB. rewrite Z.div_1_r.
  assert (H128 : (i / 128 mod 2 = i / 128)%Z).
  { apply Z.mod_small. unfold in_u8 in Hi. split; [apply Z.div_pos; lia|apply Z.div_lt_upper_bound; lia]. }
  rewrite H128. destruct (cfa_base_reg_id i); cbn in HB; rewrite <- HB; reflexivity.
Qed.
Lemma info_told_apart alt alt' i j : in_u8 i -> in_u8 j ->
  print_debug alt (fre_info_debug i) = print_debug alt' (fre_info_debug j) -> i = j.
Proof.
  intros Hi Hj H. destruct (info_read_back alt i Hi) as (t & o & R & I & O). destruct (info_read_back alt' j Hj) as (t' & o' & R' & I' & O').
  rewrite H, R' in R. apply some_inj in R. subst t'. rewrite I in I'. injection I' as E1 E2 E3 E4. subst o'. rewrite O in O'.
  unfold in_u8 in Hi, Hj. unfold bits in *.
  change (2 ^ 0)%Z with 1%Z in *. change (2 ^ 1)%Z with 2%Z in *. change (2 ^ 4)%Z with 16%Z in *. change (2 ^ 5)%Z with 32%Z in *.
  change (2 ^ 2)%Z with 4%Z in *. change (2 ^ 7)%Z with 128%Z in *. rewrite !Z.div_1_r in E1.
  assert (F : forall x y, (0 <= x < 2)%Z -> (0 <= y < 2)%Z -> (x =? 1)%Z = (y =? 1)%Z -> x = y).
  { intros x y Hx Hy E. destruct (Z.eqb_spec x 1), (Z.eqb_spec y 1); try discriminate; lia. }
  apply F in E1; [|apply Z.mod_pos_bound; lia..]. apply F in E4; [|apply Z.mod_pos_bound; lia..].
  Z.div_mod_to_equations. lia.
Qed.
