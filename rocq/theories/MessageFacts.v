(** The messages of the reader and of the writer. *)
From Coq Require Import String.
From Verif Require Export MessageSpec TextWitness EmitWitness.
Local Open Scope string_scope.

Lemma mentions_dec pre post n : 0 <= n -> mentions pre post (pre ++ fmt_dec n ++ post) n.
Proof. intros H. exists (fmt_dec n). split; [reflexivity|apply number_dec, H]. Qed.

(** ** Loading *)

Theorem load_messages md e bs er : wf_mode md -> rust_slice md bs -> load md e bs = Err er ->
  load_message_true e bs (read_error_text er) \/
  (er = IncorrectEndian /\ ~ good_magic e bs /\ ~ other_order e bs).
Proof.
  intros Hm Hb H. pose proof (load_errors md e bs er Hm Hb H) as HE.
  destruct er; try contradiction.
  - destruct HE as (_ & HM & -> & HV). left. right. left. exists (spec_version bs). split; [|auto].
    apply mentions_dec. unfold spec_version, u_at. rewrite uint_dec. apply dec_bound.
  - left. do 2 right. split; [reflexivity|]. tauto.
  - destruct HE as [_ HM]. unfold good_magic, other_order, good_magic.
    destruct (Z.eq_dec (u_at (swap e) 0 2 bs) spec_magic) as [Hs|Hs]; [left; left; split; [reflexivity|exact Hs]|].
    right. auto.
Qed.

(** ** Rows *)

Theorem row_read_messages md e f bs er : wf_mode md -> fde_ok f -> fre_load md e f bs = Err er ->
  row_message_true e f bs (read_error_text er).
Proof.
  intros Hmd Hf H. pose proof (fre_load_table md e f bs Hmd Hf) as HT.
  assert (Hi : in_u8 (fde_info f)) by apply Hf.
  destruct (width_of (fre_type_num (fde_info f))) as [aw|] eqn:Haw.
  2:{ rewrite HT in H. injection H as <-. left. exists (fre_type_num (fde_info f)). split; [|split; [reflexivity|exact Haw]].
      cbn [read_error_text]. rewrite (fretype_num _ Hi). apply mentions_dec. unfold fre_type_num, bits. lia. }
  destruct (Z.ltb_spec (zlen bs) (aw + 1)) as [Hs|Hs].
  { rewrite HT in H. injection H as <-. do 3 right. split; [reflexivity|]. exists aw. auto. }
  cbv zeta in HT.
  assert (HU : u_at e aw 1 bs = rd_u e (Z.to_nat aw) 1 bs) by apply u_at_rd.
  set (info := rd_u e (Z.to_nat aw) 1 bs) in *.
  destruct (Z.ltb_spec 3 (bits 1 4 info)) as [Hc|Hc].
  { rewrite HT in H. injection H as <-. do 2 right. left. exists (bits 1 4 info), (bits 5 2 info).
    split; [apply mentions_dec; lia|]. split; [|exact Hc]. exists aw. rewrite HU. auto. }
  destruct (width_of (bits 5 2 info)) as [ow|] eqn:How.
  2:{ rewrite HT in H. injection H as <-. right. left. exists (bits 5 2 info), (bits 1 4 info).
    assert (H3 : bits 5 2 info = 3).
    { revert How. unfold width_of. assert (0 <= bits 5 2 info < 4) by (unfold bits; apply Z.mod_pos_bound; lia).
      destruct (Z.eqb_spec (bits 5 2 info) 0), (Z.eqb_spec (bits 5 2 info) 1), (Z.eqb_spec (bits 5 2 info) 2); try discriminate. lia. }
    split; [rewrite H3; exists "3"; split; reflexivity|]. split; [|exact How]. exists aw. rewrite HU. auto. }
  destruct (Z.ltb_spec (zlen bs) (aw + 1 + bits 1 4 info * ow)) as [Hl|Hl].
  { rewrite HT in H. injection H as <-. do 3 right. split; [reflexivity|]. exists aw. split; [exact Haw|]. right.
    exists ow. rewrite HU. auto. }
  destruct (Z.ltb_spec (rd_u e 0 (Z.to_nat aw) bs) (fde_size f)) as [Hz|Hz]; congruence.
Qed.

Lemma stored_none (l : list Z) n : nth_error l n = None -> zlen l <= Z.of_nat n.
Proof. intros H. apply nth_error_None in H. unfold zlen. lia. Qed.
Theorem offset_messages fr sf er :
  (fre_cfa_offset fr = Err er -> offset_message_true fr 0 (read_error_text er)) /\
  (fre_ra_offset fr sf = Err er -> fixed_ra_offset sf = None /\ offset_message_true fr 1 (read_error_text er)) /\
  (fre_fp_offset fr sf = Err er -> fixed_fp_offset sf = None /\
     offset_message_true fr (match fixed_ra_offset sf with Some _ => 1 | None => 2 end) (read_error_text er)).
Proof.
  unfold fre_cfa_offset, fre_ra_offset, fre_fp_offset, offset_message_true. change (sr_offsets (view_fre fr)) with (fre_offsets fr).
  split; [|split].
  - intros H. destruct (nth_error (fre_offsets fr) 0) eqn:E; cbn in H; [discriminate|]. injection H as <-.
    split; [reflexivity|]. exact (stored_none _ _ E).
  - destruct (fixed_ra_offset sf); [discriminate|]. intros H. destruct (nth_error (fre_offsets fr) 1) eqn:E; cbn in H; [discriminate|].
    injection H as <-. split; [reflexivity|]. split; [reflexivity|]. exact (stored_none _ _ E).
  - destruct (fixed_fp_offset sf); [discriminate|]. intros H. split; [reflexivity|].
    destruct (fixed_ra_offset sf); (destruct (nth_error (fre_offsets fr) _) eqn:E in H; cbn in H; [discriminate|]);
      injection H as <-; (split; [reflexivity|]); exact (stored_none _ _ E).
Qed.

Lemma find_message md e p er : wf_mode md -> forall fuel it, fde_ok (ri_fde it) -> fri_find fuel md e p it = Err (inr er) ->
  exists before rest, ri_fres it = (before ++ rest)%list /\ row_message_true e (ri_fde it) rest (read_error_text er).
Proof.
  intros Hm. induction fuel as [|k IH]; intros it Hf H; cbn [fri_find] in H; [discriminate|].
  unfold fri_next in H. destruct (fde_num_fres (ri_fde it) <=? ri_index it)%Z; [discriminate|].
  destruct (fre_load md e (ri_fde it) (ri_fres it)) as [[fr rest]|er'|] eqn:E; [| |discriminate].
  - destruct (p fr); [discriminate|]. destruct (IH (FreIter (ri_fde it) rest (ri_index it + 1)) Hf H) as (b & r & Hb & Hr). cbn [ri_fres ri_fde] in Hb, Hr.
    destruct (row_decode_sound _ _ _ _ _ _ Hm Hf E) as (aw & _ & (st & info & ow & ch & HB & _) & _).
    exists (st ++ [info] ++ concat ch ++ b)%list, r. split; [|exact Hr]. rewrite HB, Hb, <- !app_assoc. reflexivity.
  - injection H as <-. exists [], (ri_fres it). split; [reflexivity|]. exact (row_read_messages md e _ _ _ Hm Hf E).
Qed.
Theorem lookup_messages md e en a er : wf_mode md -> fde_ok (en_fde en) -> get_fre_for_address md e en a = Err (inr er) ->
  lookup_message_true e en (read_error_text er).
Proof.
  intros Hm Hf H. unfold get_fre_for_address in H. destruct (a <? en_start_address en)%Z; [discriminate|].
  destruct (sub_i32 md a (en_start_address en)) as [d|x|] eqn:ES; cbn [bind] in H; [| |discriminate].
  2:{ unfold sub_i32 in ES. destruct (in_i32b _), (overflow_checks md); discriminate ES. }
  destruct (en_size en <? as_u 32 d)%Z; [discriminate|].
  destruct (en_fdetype en) eqn:ET; try (right; exact (find_message _ _ _ _ Hm _ (fres en) Hf H)).
  destruct (en_rep_block_size en) as [rep|] eqn:ER; [|discriminate].
  destruct (rep =? 0)%Z eqn:E0; [|right; exact (find_message _ _ _ _ Hm _ (fres en) Hf H)].
  injection H as <-. left. split; [reflexivity|]. split; [exact ET|].
  cbn [view_fde sd_rep]. change (fde_rep_size (en_fde en)) with (en_rep_block_size en). rewrite ER. f_equal. lia.
Qed.

(** ** False messages *)

(** Bytes that are no SFrame section in either byte order. *)
Definition junk : bytes := [x7f; x45; x4c; x46].
(** A row without offsets. *)
Definition bare_row : bytes := [x00; x00].
Definition bare_fde : fde := FdeV2 (RawFde2 0 16 0 1 0 0 0).
Theorem reader_messages_false :
  (load rel64 LE junk = Err IncorrectEndian /\ rust_slice rel64 junk /\
   ~ load_message_true LE junk (read_error_text IncorrectEndian)) /\
  (fde_ok bare_fde /\ offsets_declared LE bare_fde bare_row 0 0 /\ exists fr, fre_load rel64 LE bare_fde bare_row = Ok (fr, [])).
Proof.
  split.
  - split; [vm_compute; reflexivity|]. split; [unfold rust_slice; vm_compute; reflexivity|].
    intros [(_ & H)|[(v & (w & H & _) & _)|(H & _)]]; [vm_compute in H; discriminate H|discriminate H|discriminate H].
  - split; [unfold fde_ok, in_i32, in_u32, in_u8, i32_min, i32_max, u32_max; cbn; lia|].
    split; [exists 1; vm_compute; repeat split; discriminate|]. eexists. vm_compute. reflexivity.
Qed.
Theorem reader_messages_case :
  (exists er, load rel64 LE [xe2; xde; x03; x00] = Err er /\ read_error_text er = "unsupported sframe version (3)") /\
  (exists er, load rel64 LE [xde; xe2; x02; x00] = Err er /\ other_order LE [xde; xe2; x02; x00] /\
     read_error_text er = "the section endianness does not match that of the reader") /\
  (exists er, fre_load rel64 LE bare_fde [x00; x1e] = Err er /\
     read_error_text er = "FRE had too many offset values (expected 1 to 3, got 15 instead)") /\
  (exists er, fre_load rel64 LE bare_fde [x00; x62; x00] = Err er /\ read_error_text er = "unsupported FRE offset type (3)").
Proof.
  split; [|split; [|split]]; eexists; (split; [vm_compute; reflexivity|]); try reflexivity. split; reflexivity.
Qed.

(** A function that repeats blocks of size 0. *)
Definition zero_block : fde := FdeV2 (RawFde2 0 16 0 1 8 0 0).
Theorem use_messages_case :
  (exists fr, fre_load rel64 LE bare_fde bare_row = Ok (fr, []) /\ fre_cfa_offset fr = Err MissingFreOffset) /\
  (fde_ok zero_block /\ get_fre_for_address rel64 LE (Entry zero_block bare_row) 4 = Err (inr InvalidFdeRepBlockSize)) /\
  (fde_ok bare_fde /\ get_fre_for_address rel64 LE (Entry bare_fde [x00]) 4 = Err (inr UnexpectedEof)).
Proof.
  split; [eexists; split; vm_compute; reflexivity|].
  split; (split; [unfold fde_ok, in_i32, in_u32, in_u8, i32_min, i32_max, u32_max; cbn; lia|vm_compute; reflexivity]).
Qed.

(** ** Building *)

Lemma start_shared s : overlapping s -> (forall b, In b (fdes_of s) -> 0 < fb_size b) -> shared_address s.
Proof.
  intros (a & b & Ha & Hb & Hd & Hr) Hz. exists a, b, (fb_start b). split; [exact Ha|]. split; [exact Hb|].
  split; [congruence|]. split; [exact Hr|]. specialize (Hz b Hb). unfold in_range. lia.
Qed.
Theorem emit_messages md e s er : sfb_reach md s -> build md e s = Err er ->
  (forall b, In b (fdes_of s) -> 0 < fb_size b) -> emit_message_true s (emit_error_text er).
Proof.
  intros HR H Hz. destruct er.
  - left. split; [reflexivity|]. apply start_shared; [|exact Hz]. now apply (overlap_sound md e s HR).
  - right. split; [reflexivity|]. apply sfb_reach_wf in HR.
    destruct (build_cases md e s HR) as [(B & _)|[(B & _)|(_ & _ & [[T B]|[T B]])]]; rewrite B in H; try discriminate. exact T.
Qed.
(** Without the condition the size is still told rightly. *)
Theorem emit_too_large_message md e s : sfb_reach md s -> build md e s = Err SectionTooLarge ->
  emit_message_true s (emit_error_text SectionTooLarge).
Proof.
  intros HR H. right. split; [reflexivity|]. apply sfb_reach_wf in HR.
  destruct (build_cases md e s HR) as [(B & _)|[(B & _)|(_ & _ & [[T B]|[T B]])]]; rewrite B in H; try discriminate. exact T.
Qed.

(** A function of size 0 inside another. *)
Definition outer : fdb := fdb_new options_new 0 16.
Definition hollow : fdb := fdb_new options_new 4 0.
Definition hollow_sfb : sfb := get_ok (sfb_new options_new) (add_fdes (sfb_new options_new) [outer; hollow]).
Theorem emit_messages_false : forall md e,
  sfb_reach md hollow_sfb /\ build md e hollow_sfb = Err OverlappingFdes /\
  ~ emit_message_true hollow_sfb (emit_error_text OverlappingFdes).
Proof.
  intros md e. split; [|split].
  - apply (add_fdes_reach md [outer; hollow] (sfb_new options_new)); [repeat constructor|new_fdes|vm_compute; reflexivity].
  - destruct md as [[] [] ub bs]; vm_compute; reflexivity.
  - intros [(_ & a & b & x & Ha & Hb & Hd & Hx & Hy)|(H & _)]; [|discriminate H].
    cbn in Ha, Hb. unfold in_range in *.
    destruct Ha as [<-|[<-|[]]], Hb as [<-|[<-|[]]]; cbn in *; lia || congruence.
Qed.
Theorem emit_messages_case : forall md e,
  sfb_reach md over_sfb /\ build md e over_sfb = Err OverlappingFdes /\ (forall b, In b (fdes_of over_sfb) -> 0 < fb_size b).
Proof.
  intros md e. split; [|split].
  - apply over_reach.
  - destruct md as [[] [] ub bs]; vm_compute; reflexivity.
  - intros b Hb. cbn in Hb. destruct Hb as [<-|[<-|[]]]; cbn; lia.
Qed.

(** ** The converter: two functions, each with a row 2 GB behind its start *)

Definition far_row_low : eh_frame := of_functions [DwFde 0x1000 0x20 nops (rows_ok [amd_row 0x80001000 0x80001010 7 8 RUndefined])].
Definition far_row_high : eh_frame := of_functions [DwFde 0x2000 0x20 nops (rows_ok [amd_row 0x80002000 0x80002010 7 8 RUndefined])].
Theorem row_offset_messages_equal : forall g,
  dwarf2sframe rel64 amd far_row_low = Err (InvalidRowOffset 0x80001000 0x80000000) /\
  dwarf2sframe rel64 amd far_row_high = Err (InvalidRowOffset 0x80002000 0x80000000) /\
  conv_error_text g (InvalidRowOffset 0x80001000 0x80000000) = conv_error_text g (InvalidRowOffset 0x80002000 0x80000000).
Proof. intros g. split; [vm_compute; reflexivity|]. split; vm_compute; reflexivity. Qed.
