(** The accessors on a row read from bytes, when the section is read from bytes as well: the two
    fixed offsets are then bytes of the header, not the reader's own accessors. *)
From Verif Require Export ReadWitness.

Lemma decoded_in_section md e img sf f bs aw r rest fr rest' :
  wf_mode md -> rust_slice md img -> load md e img = Ok sf ->
  fde_ok f -> width_of (fre_type_num (fde_info f)) = Some aw ->
  spec_row_at e aw bs r rest -> fre_load md e f bs = Ok (fr, rest') ->
  fre_cfa_offset fr = stored r 0 /\
  fre_ra_offset fr sf =
    (if spec_fixed_ra img =? 0 then stored r 1 else Ok (spec_fixed_ra img)) /\
  fre_fp_offset fr sf =
    (if negb (spec_fixed_fp img =? 0) then Ok (spec_fixed_fp img)
     else if spec_fixed_ra img =? 0 then stored r 2 else stored r 1).
Proof.
  intros Hm HS HL Hf Hw Hr HR.
  destruct (decoded_offsets md e f bs aw r rest fr rest' sf Hm Hf Hw Hr HR) as (H1 & H2 & H3).
  destruct (load_accessors md e img sf Hm HS HL) as (_ & _ & _ & E1 & E2 & _).
  rewrite E1, E2 in H3. rewrite E2 in H2. unfold nonzero in H2, H3.
  destruct (spec_fixed_ra img =? 0), (spec_fixed_fp img =? 0); cbn in *; auto.
Qed.

(** A header of 28 bytes that fixes the return address at -8, and a row of two offsets. *)
Definition fixed_header : bytes :=
  [xe2; xde; x02; x00; x03; x00; xf8] ++ repeat x00 21.
Definition fixed_header_sf : sframe := get_ok dummy_sf (load rel64 LE fixed_header).
Definition two_offsets : bytes := [x00; x05; x10; xf0].
Definition two_offsets_fde : fde := FdeV2 (RawFde2 0 16 0 1 0 0 0).

Lemma fixed_header_case :
  load rel64 LE fixed_header = Ok fixed_header_sf /\
  spec_row_at LE 1 two_offsets (SpecRow 0 true false [16; -16]) [] /\
  fre_load rel64 LE two_offsets_fde two_offsets = Ok (Fre two_offsets_fde 0 5 [16; -16; 0], []) /\
  let fr := Fre two_offsets_fde 0 5 [16; -16; 0] in
  fre_cfa_offset fr = Ok 16 /\ fre_ra_offset fr fixed_header_sf = Ok (-8) /\
  fre_fp_offset fr fixed_header_sf = Ok (-16).
Proof.
  split; [vm_compute; reflexivity|]. split.
  - exists [x00], x05, 1, [[x10]; [xf0]]. repeat split; try (vm_compute; reflexivity).
    + repeat constructor.
    + vm_compute. discriminate.
  - vm_compute. repeat split.
Qed.
