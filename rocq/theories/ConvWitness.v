(** Concrete inputs of the converter: a prologue as compilers emit it, and the
    inputs on which claims about the converter fail. *)
From Verif Require Export ConvErrors.

(** [push rbp; mov rbp, rsp; ..; ret], with a zero-width row. *)
Definition amd_row (a b reg cfa : Z) (fp : reg_rule) : dw_row :=
  DwRow a b (CfaReg reg cfa) [(16, ROffset (-8)); (6, fp)].
Definition prologue : list dw_row :=
  [ amd_row 0x1000 0x1001 7 8 RUndefined; amd_row 0x1001 0x1004 7 16 (ROffset (-16));
    amd_row 0x1004 0x1004 7 24 (ROffset (-16)); amd_row 0x1004 0x101f 6 16 (ROffset (-16));
    amd_row 0x101f 0x1020 7 8 RSameValue ].
Definition nops : insns := Insns [INop; INop] None.
Definition prologue_insns : insns :=
  Insns [ IAdvanceLoc 1; IDefCfaOffset 16; IOffset 6 2; IAdvanceLoc 3; IDefCfaRegister 6;
          IAdvanceLoc 27; IDefCfa 7 8; ISameValue 6; INop ] None.
(** A PLT: rows given by an expression, [rsp+8 + ((rip & 15) >= 11) << 3]. *)
Definition plt_expr : expression :=
  Expression (map Zb [0x77; 0x08; 0x80; 0x00; 0x3f; 0x1a; 0x3b; 0x2a; 0x33; 0x24; 0x22])
    [ OpRegisterOffset 7 8 0; OpRegisterOffset 16 0 0; OpUnsignedConstant 15; OpAnd;
      OpUnsignedConstant 11; OpGe; OpUnsignedConstant 3; OpShl; OpPlus ] None.
Definition plt_insns : insns :=
  Insns [ IDefCfaOffset 16; IAdvanceLoc 6; IDefCfaOffset 24; IAdvanceLoc 10; IDefCfaExpression plt_expr; INop ] None.
(** An expression that breaks off. *)
Definition bad_expr : expression := Expression (map Zb [0x22; 0x77]) [OpPlus] (Some (GimliError 7)).
Definition plt_rows_dw : list dw_row :=
  [ amd_row 0x2000 0x2006 7 16 RUndefined; amd_row 0x2006 0x2010 7 24 RUndefined;
    DwRow 0x2010 0x2040 (CfaExpression plt_expr) [(16, ROffset (-8))] ].
Definition rows_ok (l : list dw_row) : dw_rows + gimli_error := inl (DwRows l None).
Definition fn_prologue : dw_fde := DwFde 0x1000 0x20 prologue_insns (rows_ok prologue).
Definition fn_plt : dw_fde := DwFde 0x2000 0x40 plt_insns (rows_ok plt_rows_dw).
Definition of_functions (l : list dw_fde) : eh_frame :=
  EhFrame false (DwEntries (DwCie :: map DwGoodFde l) None).
Definition sample : eh_frame := of_functions [fn_prologue; fn_plt].
Definition amd : options := conv_options_new Amd64.
Definition arm : options := conv_options_new Aarch64.
Definition got (o : outcome conv_error sfb) : sfb := get_ok (sfb_new options_new) o.
Definition sample_sfb : sfb := Eval vm_compute in got (dwarf2sframe rel64 amd sample).
Definition sample_bytes (e : endian) : bytes := section e sample_sfb.

Ltac typed_eh :=
  unfold eh_typed, entries_of; cbn;
  repeat (apply Forall_cons || apply Forall_nil); cbn; unfold dw_fde_typed, dw_row_typed, in_u64; cbn; unfold i32_max;
  try exact I; (split; [lia|split; [lia|]]); repeat (apply Forall_cons || apply Forall_nil); cbn; unfold i32_max; lia.

Lemma sample_typed : eh_typed sample.
Proof. typed_eh. Qed.
Lemma sample_converts md : dwarf2sframe md amd sample = Ok sample_sfb.
Proof.
  destruct md as [[] da ub bsr]; destruct da; vm_compute; reflexivity.
Qed.
Lemma sample_builds e : build rel64 e sample_sfb = Ok (sample_bytes e).
Proof. destruct e; vm_compute; reflexivity. Qed.
Lemma sample_slice md e : wf_mode md -> rust_slice md (sample_bytes e).
Proof.
  intros H. unfold rust_slice. destruct H as [H|H]; destruct e; rewrite H; vm_compute; reflexivity.
Qed.

(** ** Preservation fails for tied offsets (see C38) *)

Definition tied_dw : dw_row := DwRow 0x1000 0x1010 (CfaReg 31 (-128)) [(30, ROffset 128)].
Definition tied_fn : dw_fde := DwFde 0x1000 0x10 nops (rows_ok [tied_dw]).
Definition tied_eh : eh_frame := of_functions [tied_fn].
Definition tied_sfb : sfb := Eval vm_compute in got (dwarf2sframe rel64 arm tied_eh).
Definition tied_bytes : bytes := Eval vm_compute in section LE tied_sfb.
Definition tied_sf : sframe := Eval vm_compute in get_ok dummy_sf (load rel64 LE tied_bytes).

Lemma tied_represented : representable Aarch64 tied_dw Sp (-128) 128 None.
Proof. unfold representable, in_i32, i32_min, i32_max. cbn. repeat split; try lia. right. reflexivity. Qed.

Lemma tied_contents : exists en fr, all_fdes tied_sf = [en] /\ all_fres rel64 LE en = Ok (map inl [fr]) /\
  fre_start_address_offset fr = 0 /\ en_start_address en = 0x1000 /\ en_size en = 0x10 /\
  observed tied_sf fr = Unwind Sp false (Some (-128)) (Some (-128)) None.
Proof. do 2 eexists. split; [vm_compute; reflexivity|]. split; [vm_compute; reflexivity|]. vm_compute. auto. Qed.

Lemma tied_section u : section_says rel64 LE tied_sf 0x1000 u -> u = Unwind Sp false (Some (-128)) (Some (-128)) None.
Proof.
  intros (en & good & fr & Hen & _ & Hg & Hfr & _ & _ & <-).
  destruct tied_contents as (en0 & fr0 & H1 & H2 & _ & _ & _ & H3). rewrite H1 in Hen. destruct Hen as [<-|[]].
  rewrite H2 in Hg. apply ok_inj, map_inl_inj in Hg. subst good. destruct Hfr as [<-|[]]. exact H3.
Qed.

Theorem tied_not_preserved :
  eh_typed tied_eh /\ dwarf2sframe rel64 arm tied_eh = Ok tied_sfb /\
  (forall f, last_at tied_eh f -> rows_disjoint f) /\
  build rel64 LE tied_sfb = Ok tied_bytes /\ load rel64 LE tied_bytes = Ok tied_sf /\
  dwarf_says tied_eh 0x1000 tied_dw /\
  (exists u, section_says rel64 LE tied_sf 0x1000 u) /\
  forall u, section_says rel64 LE tied_sf 0x1000 u -> ~ matches Aarch64 tied_dw u.
Proof.
  split; [typed_eh|]. split; [vm_compute; reflexivity|]. split.
  { intros f (pre & post & H & _). cbn in H. destruct pre as [|x [|y pre]]; try discriminate. injection H as <-.
    intros r r' [<-|[]] [<-|[]] Hl. lia. }
  split; [vm_compute; reflexivity|]. split; [vm_compute; reflexivity|]. split.
  { exists tied_fn. split; [exists [], []; split; [reflexivity|intros ? []]|].
    unfold in_range. cbn. split; [lia|]. split; [left; reflexivity|lia]. }
  split.
  - destruct tied_contents as (en & fr & H1 & H2 & H3 & H4 & H5 & _).
    exists (observed tied_sf fr), en, [fr], fr. rewrite H1, H3, H4, H5. unfold in_range.
    split; [left; reflexivity|]. split; [lia|]. split; [exact H2|]. split; [left; reflexivity|].
    split; [lia|]. split; [|reflexivity]. intros fr' [<-|[]] _. lia.
  - intros u Hu [HM _]. apply tied_section in Hu. specialize (HM _ _ _ _ tied_represented). congruence.
Qed.

(** ** Rejected rows *)

Definition one_row (r : dw_row) : eh_frame := of_functions [DwFde 0x1000 0x20 nops (rows_ok [r])].
(** The return address is not at CFA-8, as in a signal trampoline. *)
Definition ra_elsewhere : eh_frame := one_row (DwRow 0x1000 0x1010 (CfaReg 7 8) [(16, ROffset (-16))]).
(** The row starts where the function ends. *)
Definition row_outside : eh_frame := one_row (amd_row 0x1020 0x1021 7 8 RUndefined).
(** The row starts in front of the function. *)
Definition row_in_front : eh_frame := one_row (amd_row 0xfff 0x1010 7 8 RUndefined).
(** Two rows with the same start. *)
Definition row_twice : eh_frame :=
  of_functions [DwFde 0x1000 0x20 nops (rows_ok [amd_row 0x1000 0x1010 7 8 RUndefined; amd_row 0x1000 0x1020 7 8 RUndefined])].
(** A row far inside a very large function. *)
Definition row_far : eh_frame :=
  of_functions [DwFde 0x1000 0x20000000 nops (rows_ok [amd_row 0x10001000 0x10001010 7 8 RUndefined])].

Lemma panics_typed : Forall eh_typed [ra_elsewhere; row_outside; row_twice; row_far; row_in_front].
Proof. repeat (apply Forall_cons || apply Forall_nil); typed_eh. Qed.

Theorem rejected_rows_panic :
  Forall eh_typed [ra_elsewhere; row_outside; row_twice; row_far; row_in_front] /\
  Forall (fun eh => dwarf2sframe rel64 amd eh = Panic) [ra_elsewhere; row_outside; row_twice; row_far] /\
  dwarf2sframe dev64 amd row_in_front = Panic /\
  dwarf2sframe rel64 amd row_in_front = Err (InvalidRowOffset 0xfff (2 ^ 64 - 1)).
Proof.
  split; [apply panics_typed|]. split.
  - repeat (apply Forall_cons || apply Forall_nil); vm_compute; reflexivity.
  - vm_compute. auto.
Qed.

(** ** A function that ends beyond [i32::MAX] is accepted *)

Definition long_fn : dw_fde := DwFde i32_max i32_max nops (rows_ok [DwRow i32_max (i32_max + 1) (CfaReg 7 8) [(16, ROffset (-8))]]).
Definition long_eh : eh_frame := of_functions [long_fn].
(** A panicking function in front of one that cannot be parsed. *)
Definition panic_first : eh_frame :=
  EhFrame false (DwEntries [DwGoodFde (DwFde 0x1000 0x20 nops (rows_ok [amd_row 0x1020 0x1021 7 8 RUndefined])); DwBadFde (GimliError 1)] None).

Theorem end_beyond_accepted :
  eh_typed long_eh /\ i32_max < df_start long_fn + df_len long_fn /\
  entries_of long_eh = [DwCie; DwGoodFde long_fn] /\
  exists s, dwarf2sframe rel64 amd long_eh = Ok s /\ length (fdes_of s) = 1%nat.
Proof.
  split; [typed_eh|]. split; [vm_compute; reflexivity|]. split; [reflexivity|].
  eexists. split; [vm_compute; reflexivity|reflexivity].
Qed.

Theorem panic_hides_error :
  eh_typed panic_first /\ In (DwBadFde (GimliError 1)) (entries_of panic_first) /\
  dwarf2sframe rel64 amd panic_first = Panic.
Proof.
  split; [typed_eh|]. split; [right; left; reflexivity|vm_compute; reflexivity].
Qed.

(** ** Dumping changes the result *)

Definition bad_expression : eh_frame :=
  of_functions [DwFde 0x1000 0x20 (Insns [INop; IDefCfaExpression bad_expr] None) (rows_ok [DwRow 0x1000 0x1020 (CfaExpression bad_expr) []])].
Definition dump_overflow : eh_frame :=
  of_functions [DwFde (2 ^ 64 - 1) 1 nops (rows_ok [])].

Theorem dumping_changes_result :
  eh_typed bad_expression /\ eh_typed dump_overflow /\
  (exists s, dwarf2sframe rel64 amd bad_expression = Ok s) /\
  dwarf2sframe rel64 (set_debugdump true amd) bad_expression = Err (InvalidDwarfFde (GimliError 7)) /\
  dwarf2sframe dev64 amd dump_overflow = Err (InvalidStartAddress (2 ^ 64 - 1)) /\
  dwarf2sframe dev64 (set_debugdump true amd) dump_overflow = Panic.
Proof.
  split; [typed_eh|]. split; [typed_eh|]. split; [eexists; vm_compute; reflexivity|].
  vm_compute. auto.
Qed.

(** ** The sample meets every condition *)

Lemma sample_last f : last_at sample f -> f = fn_prologue \/ f = fn_plt.
Proof.
  intros (pre & post & H & _). cbn in H.
  assert (Hi : In f [fn_prologue; fn_plt]) by (rewrite H; apply in_or_app; right; left; reflexivity).
  destruct Hi as [<-|[<-|[]]]; auto.
Qed.
Lemma sample_last_prologue : last_at sample fn_prologue.
Proof. exists [], [fn_plt]. split; [reflexivity|]. intros f' [<-|[]]. cbn. discriminate. Qed.
Lemma sample_last_plt : last_at sample fn_plt.
Proof. exists [fn_prologue], []. split; [reflexivity|]. intros f' []. Qed.

Lemma not_clashing a fixed r :
  match classify a r with
  | Some (_, cfa, ra, fp) =>
      match dominant (stored_for fixed cfa ra fp) with
      | Some m => m <> -128 /\ m <> -32768
      | None => True
      end
  | None => True
  end -> ~ clash a fixed r.
Proof.
  intros H (base & cfa & ra & fp & m & Hr & Hd & Hm & _). apply classify_spec in Hr. rewrite Hr, Hd in H. lia.
Qed.

Lemma sample_rows f : last_at sample f -> rows_disjoint f /\
  forall r, In r (wide_rows f) -> ~ clash (op_arch amd) (fixed_ra_of amd sample) r.
Proof.
  intros H. apply sample_last in H. destruct H as [-> | ->]; split.
  1,3: intros r r' Hr Hr' Hl; vm_compute in Hr, Hr';
    repeat (destruct Hr as [<-|Hr]; [repeat (destruct Hr' as [<-|Hr']; [cbn in *; lia|]); destruct Hr'|]); destruct Hr.
  all: intros r Hr; apply not_clashing; vm_compute in Hr;
    repeat (destruct Hr as [<-|Hr]; [vm_compute; try exact I; split; discriminate|]); destruct Hr.
Qed.

Lemma sample_says : dwarf_says sample 0x1002 (amd_row 0x1001 0x1004 7 16 (ROffset (-16))).
Proof.
  exists fn_prologue. split; [apply sample_last_prologue|]. unfold in_range. cbn. split; [lia|].
  split; [right; left; reflexivity|lia].
Qed.

Lemma sample_tame md f : In f (functions (entries_of sample)) -> tame md amd (fixed_ra_of amd sample) f.
Proof.
  assert (HF : fixed_ra_of amd sample = Some (-8)) by reflexivity. rewrite HF.
  intros H. cbn in H. destruct H as [<-|[<-|[]]]; (split; [intros ([=] & _)|]).
  all: split; [vm_compute; repeat (apply NoDup_cons; [cbn; intuition discriminate|]); apply NoDup_nil|].
  all: intros r Hr; vm_compute in Hr; repeat (destruct Hr as [<-|Hr]; [split; [unfold off; cbn; lia|split; [unfold off; cbn; lia|]]|]);
    try destruct Hr.
  all: intros base cfa ra fp x Hr [= <-]; apply classify_spec in Hr; vm_compute in Hr; congruence.
Qed.

(** Two rows saying the same. *)
Definition merge_eh : eh_frame :=
  of_functions [DwFde 0x1000 0x20 nops (rows_ok [amd_row 0x1000 0x1010 7 8 RUndefined; amd_row 0x1010 0x1020 7 8 RSameValue])].
