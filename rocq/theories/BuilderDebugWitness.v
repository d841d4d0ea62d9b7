(** Concrete debug output of builders and raw structures. *)
From Coq Require Import String.
From Verif Require Export BuilderDebugFacts DebugWitness Witness.
Local Open Scope string_scope.

Definition word_text (name : string) (z : Z) : dbg := DTuple name [int_debug z].
Definition told_texts : debug_texts := DebugTexts (word_text "U16") (word_text "Version") (word_text "Abi").
Definition told_words : word_texts := WordTexts (word_text "U32") (word_text "I32").
Lemma word_text_wordy n z : is_word n -> wordy (word_text n z).
Proof. intros H. constructor; [exact H|discriminate|]. apply Forall_cons; [apply int_wordy|apply Forall_nil]. Qed.
Lemma word_text_telling n : telling (word_text n).
Proof. intros x y H. exact (int_telling _ _ (one_value _ _ _ H)). Qed.
Lemma told_plain : plain_texts told_texts /\ telling_texts told_texts.
Proof. repeat split; try (intros z; apply word_text_wordy; a_word); apply word_text_telling. Qed.
Lemma told_words_plain : plain_words told_words /\ telling (wt_u32 told_words) /\ telling (wt_i32 told_words).
Proof. repeat split; try (intros z; apply word_text_wordy; a_word); apply word_text_telling. Qed.

Definition demo_debug : string :=
  "SFrameBuilder { options: SFrameOptions { flags: Flags(1), abi_arch: Abi(0), fixed_fp_offset: None, fixed_ra_offset: None }, " ++
  "fdes: {256: FuncDescBuilder { options: SFrameOptions { flags: Flags(1), abi_arch: Abi(0), fixed_fp_offset: None, fixed_ra_offset: None }, " ++
  "start_address: 256, size: 16, rep_size: None, pauth_key: A, fres: {" ++
  "0: FrameRowBuilder { start_address: 0, offsets: Some(FrameRowOffsets { cfa: 8, ra: Some(-8), fp: Some(-16) }), mangled_ra_p: false, cfa_base_reg_id: Sp }, " ++
  "4: FrameRowBuilder { start_address: 4, offsets: Some(FrameRowOffsets { cfa: 16, ra: Some(-8), fp: Some(-16) }), mangled_ra_p: false, cfa_base_reg_id: Sp }} }, " ++
  "512: FuncDescBuilder { options: SFrameOptions { flags: Flags(1), abi_arch: Abi(0), fixed_fp_offset: None, fixed_ra_offset: None }, " ++
  "start_address: 512, size: 300, rep_size: None, pauth_key: A, fres: {" ++
  "2: FrameRowBuilder { start_address: 2, offsets: Some(FrameRowOffsets { cfa: 24, ra: Some(-8), fp: Some(-16) }), mangled_ra_p: false, cfa_base_reg_id: Sp }} }} }".
Lemma demo_shown : builder_text false told_texts demo_sfb = demo_debug.
Proof. vm_compute. reflexivity. Qed.
(** A function without rows, in the indented layout. *)
Definition bare_sfb : sfb :=
  get_ok (sfb_new options_new) (add_fdes (sfb_new options_new) [fdb_new options_new (-4) 8]).
Definition lines (l : list string) : string := join newline l.
Definition bare_pretty : string := lines
  ["SFrameBuilder {";
   "    options: SFrameOptions {";
   "        flags: Flags(";
   "            1,";
   "        ),";
   "        abi_arch: Abi(";
   "            0,";
   "        ),";
   "        fixed_fp_offset: None,";
   "        fixed_ra_offset: None,";
   "    },";
   "    fdes: {";
   "        -4: FuncDescBuilder {";
   "            options: SFrameOptions {";
   "                flags: Flags(";
   "                    1,";
   "                ),";
   "                abi_arch: Abi(";
   "                    0,";
   "                ),";
   "                fixed_fp_offset: None,";
   "                fixed_ra_offset: None,";
   "            },";
   "            start_address: -4,";
   "            size: 8,";
   "            rep_size: None,";
   "            pauth_key: A,";
   "            fres: {},";
   "        },";
   "    },";
   "}"].
Lemma bare_shown : builder_text true told_texts bare_sfb = bare_pretty /\ bare_sfb <> sfb_new options_new.
Proof. split; [vm_compute; reflexivity|discriminate]. Qed.
Definition bare_seen : sfb_seen :=
  SfbSeen (OptionsSeen 1 (DTuple "Abi" [DLeaf "0"]) None None)
    [((-4)%Z, FdbSeen (OptionsSeen 1 (DTuple "Abi" [DLeaf "0"]) None None) (-4) 8 None KeyA [])].
Lemma bare_read : read_builder bare_pretty = Some bare_seen.
Proof. vm_compute. reflexivity. Qed.

Definition demo_header : header := match header_from_prefix LE (demo LE) with Some h => h | None => Header (Preamble 0 0 0) 0 0 0 0 0 0 0 0 0 end.
Lemma header_case :
  header_from_prefix LE (demo LE) = Some demo_header /\
  print_debug false (header_debug told_texts told_words demo_header) =
    "Header { preamble: Preamble { magic: U16(57058), version: Version(2), flags: Flags(1) }, abi_arch: Abi(0), fixed_fp_offset: 0, " ++
    "fixed_ra_offset: 0, auxhdr_len: 0, num_fdes: U32(2), num_fres: U32(3), fre_len: U32(15), fdeoff: U32(0), freoff: U32(40) }".
Proof. split; vm_compute; reflexivity. Qed.
Definition demo_fde : bytes := firstn FDE2_SIZE (skipn HEADER_SIZE (demo LE)).
Lemma fde_case :
  length demo_fde = FDE2_SIZE /\
  print_debug false (fde2_debug told_texts told_words (fde2_decode LE demo_fde)) =
    "FuncDescEntry { start_address: I32(256), size: U32(16), start_fre_off: U32(0), num_fres: U32(2), info: FdeInfo(0), rep_size: 0, _padding2: U16(0) }".
Proof. split; vm_compute; reflexivity. Qed.
