(** What [dwarfdump] prints for concrete inputs. *)
From Coq Require Import String Ascii.
From Verif Require Export DdFacts V1Witness.
Local Open Scope string_scope.

Definition some_pe (e : Z) : string :=
  match e with
  | 0x00 => "DW_EH_PE_absptr" | 0x01 => "DW_EH_PE_uleb128" | 0x02 => "DW_EH_PE_udata2" | 0x03 => "DW_EH_PE_udata4"
  | 0x04 => "DW_EH_PE_udata8" | 0x09 => "DW_EH_PE_sleb128" | 0x0a => "DW_EH_PE_sdata2" | 0x0b => "DW_EH_PE_sdata4"
  | 0x0c => "DW_EH_PE_sdata8" | 0x10 => "DW_EH_PE_pcrel" | 0x20 => "DW_EH_PE_textrel" | 0x30 => "DW_EH_PE_datarel"
  | 0x40 => "DW_EH_PE_funcrel" | 0x50 => "DW_EH_PE_aligned"
  | _ => "Unknown DwEhPe: " ++ fmt_dec e
  end%Z.
Definition some_dd : printers_dd :=
  {| pd := some_texts; pr_pe := some_pe; pr_gimli_debug := fun '(GimliError c) => "Error" ++ fmt_dec c |}.
Lemma some_pe_plain : pe_plain some_dd.
Proof.
  intros e. cbn [pr_pe some_dd]. assert (H : without "/" ("Unknown DwEhPe: " ++ fmt_dec e)).
  { apply without_app; [no_char|]. apply plain_without; [reflexivity|apply dec_plain]. }
  unfold some_pe. repeat match goal with |- context [match ?x with _ => _ end] => destruct x; try exact H end; apply without_all; reflexivity.
Qed.
Lemma below_8 a : 0 <= a < 8 -> In a [0; 1; 2; 3; 4; 5; 6; 7].
Proof. intros H. assert (E : a = 0 \/ a = 1 \/ a = 2 \/ a = 3 \/ a = 4 \/ a = 5 \/ a = 6 \/ a = 7) by lia. cbn. tauto || (intuition auto). Qed.
Lemma below_16 a : 0 <= a < 16 -> In a [0; 1; 2; 3; 4; 5; 6; 7; 8; 9; 10; 11; 12; 13; 14; 15].
Proof.
  intros H. assert (E : a = 0 \/ a = 1 \/ a = 2 \/ a = 3 \/ a = 4 \/ a = 5 \/ a = 6 \/ a = 7 \/
    a = 8 \/ a = 9 \/ a = 10 \/ a = 11 \/ a = 12 \/ a = 13 \/ a = 14 \/ a = 15) by lia. cbn. intuition auto.
Qed.
Lemma some_pe_apart : pe_apart some_dd.
Proof.
  split; intros a b Ha Hb H.
  - apply below_8 in Ha. apply below_8 in Hb. cbn [In] in Ha, Hb.
    repeat (destruct Ha as [<-|Ha]); try destruct Ha; repeat (destruct Hb as [<-|Hb]); try destruct Hb; try reflexivity; vm_compute in H; discriminate H.
  - apply below_16 in Ha. apply below_16 in Hb. cbn [In] in Ha, Hb.
    repeat (destruct Ha as [<-|Ha]); try destruct Ha; repeat (destruct Hb as [<-|Hb]); try destruct Hb; try reflexivity; vm_compute in H; discriminate H.
Qed.
Lemma some_insn_texts : insn_texts some_texts.
Proof. intros c. reflexivity. Qed.
Definition dd_of (m : elf_arch) (l : list dd_entry) (en : option gimli_error) : dd_file :=
  {| dd_elf := file_of m []; dd_parse := Some (fun _ => DdEntries l en) |}.
Lemma dd_of_entries md m l en : dd_entries_of md (dd_of m l en) = Some (DdEntries l en).
Proof. reflexivity. Qed.
Definition dd_said (md : mode) (m : elf_arch) (l : list dd_entry) (en : option gimli_error) : list event * outcome dd_error unit :=
  dwarfdump_main some_dd md (Some ("a.out", Some (dd_of m l en))).
Definition some_cie : cie :=
  Cie 0 0x18 1 1 (-8) 16 (Some 0x1b) (Some (0x9b, Indirect 0x4020)) (Some 0x1b)
    (Insns [IDefCfa 7 8; IOffset 16 1; INop] None).
Definition some_dd_fde : dd_entry :=
  DdPartial 0x1c 0x1c 0 (inl (DdFde 0x1000 0x10 (Some (Direct 0x2000))
    (Insns [IAdvanceLoc 1; IDefCfaOffset 16; IDefCfaExpression plt_expr; IOther 1] None))).
(** An entry that cannot be parsed, and one with an unknown instruction. *)
Definition bad_dd_fde : dd_entry := DdPartial 0x3c 0x1c 0x77 (inr (GimliError 5)).
Definition odd_dd_fde : dd_entry :=
  DdPartial 0x5c 0x1c 0 (inl (DdFde 0x1010 0x10 None (Insns [IAdvanceLoc 1] (Some (GimliError 6))))).
(** An expression that ends too early. *)
Definition cut_dd_fde : dd_entry :=
  DdPartial 0x7c 0x1c 0 (inl (DdFde 0x1020 0x10 None (Insns [IDefCfaExpression cut_expr; INop] None))).
(** Kernel code at the very end of the address space. *)
Definition last_dd_fde : dd_entry :=
  DdPartial 0x9c 0x1c 0 (inl (DdFde (2 ^ 64 - 0x10) 0x10 None (Insns [INop] None))).

Lemma some_dd_typed : Forall dd_typed [DdCie some_cie; some_dd_fde; bad_dd_fde; odd_dd_fde; cut_dd_fde; last_dd_fde].
Proof.
  assert (I0 : forall l, forallb (fun i => match dwarf_insn i with
      | Some (_, ops) => forallb (fun o => match o with OReg r => (0 <=? r)%Z && (r <? 2 ^ 16)%Z | OAddress n => (0 <=? n)%Z && (n <? 2 ^ 64)%Z | _ => true end) ops
      | None => true end) l = true -> Forall insn_typed l).
  { induction l as [|i l IH]; intros H; [constructor|]. cbn [forallb] in H. apply andb_prop in H. destruct H as [H1 H2].
    constructor; [|apply IH, H2]. unfold insn_typed. destruct (dwarf_insn i) as [[name ops]|]; [|exact I].
    clear - H1. induction ops as [|o ops IH]; [constructor|]. cbn [forallb] in H1. apply andb_prop in H1. destruct H1 as [H1 H2].
    constructor; [|apply IH, H2]. destruct o; cbn [operand_typed]; try exact I; apply andb_prop in H1; destruct H1 as [A B];
      apply Z.leb_le in A; apply Z.ltb_lt in B; lia. }
  apply Forall_forall. intros e He. cbn [In] in He. repeat (destruct He as [<-|He]); [..|destruct He];
    cbn [dd_typed some_cie some_dd_fde bad_dd_fde odd_dd_fde cut_dd_fde last_dd_fde];
    unfold cie_typed, dd_fde_typed, in_u64, byte_typed, pointer_typed; cbn -[Z.pow]; unfold in_u64;
    repeat match goal with
    | |- _ /\ _ => split | |- True => exact I | |- _ <= _ => lia | |- _ < _ => lia
    | |- Forall insn_typed _ => apply I0; vm_compute; reflexivity
    end.
Qed.

Ltac some_typed := let H := fresh in pose proof some_dd_typed as H; rewrite Forall_forall in H; apply Forall_forall; intros e He; apply H; cbn in He |- *; tauto.

(** ** C88 *)

Theorem sample_dump :
  Forall dd_typed [DdCie some_cie; some_dd_fde; bad_dd_fde; odd_dd_fde] /\
  forall md, dd_said md ElfX86_64 [DdCie some_cie; some_dd_fde; bad_dd_fde; odd_dd_fde] None =
  (map Out
    [ "Exception handling frame information for section .eh_frame"; ""; "0x00000000: CIE"; "        length: 0x00000018";
      "       version: 0x01"; "    code_align: 1"; "    data_align: -8"; "   ra_register: RA";
      " lsda_encoding: DW_EH_PE_pcrel/DW_EH_PE_sdata4";
      "   personality: DW_EH_PE_pcrel/DW_EH_PE_sdata4 (0x0000000000004020)";
      "  fde_encoding: DW_EH_PE_pcrel/DW_EH_PE_sdata4";
      "                DW_CFA_def_cfa (RSP, 8)"; "                DW_CFA_offset (RA, 1)"; "                DW_CFA_nop";
      "  Instructions: Init State:"; "";
      ""; "0x0000001c: FDE"; "        length: 0x0000001c"; "   CIE_pointer: 0x00000000";
      "    start_addr: 0x0000000000001000";
      "    range_size: 0x0000000000000010 (end_addr = 0x0000000000001010)";
      "          lsda: 0x0000000000002000"; "  Instructions:";
      "                DW_CFA_advance_loc (1)"; "                DW_CFA_def_cfa_offset (16)";
      "                DW_CFA_def_cfa_expression (...)";
      "                  DW_OP_register_offset RSP 8 0"; "                  DW_OP_register_offset RA 0 0";
      "                  DW_OP_uconst 15"; "                  DW_OP_and"; "                  DW_OP_uconst 11";
      "                  DW_OP_ge"; "                  DW_OP_uconst 3"; "                  DW_OP_shl"; "                  DW_OP_plus";
      "                Other"; "";
      ""; "0x0000003c: FDE"; "        length: 0x0000001c"; "   CIE_pointer: 0x00000077";
      "Failed to parse FDE: error 5";
      ""; "0x0000005c: FDE"; "        length: 0x0000001c"; "   CIE_pointer: 0x00000000";
      "    start_addr: 0x0000000000001010";
      "    range_size: 0x0000000000000010 (end_addr = 0x0000000000001020)";
      "  Instructions:"; "                DW_CFA_advance_loc (1)"; "Failed to decode CFI instruction: error 6"; "" ], Ok tt).
Proof.
  split; [some_typed|]. intros md. destruct md as [[] [] ? ?]; vm_compute; reflexivity.
Qed.

Theorem some_dd_readable t : clear_texts (pd some_dd) t /\ plain_texts (pd some_dd) t /\ tidy_texts (pd some_dd) t /\
  insn_texts (pd some_dd) /\ pe_plain some_dd /\ pe_apart some_dd /\ (forall d d', pr_die (pd some_dd) d = pr_die (pd some_dd) d' -> d = d').
Proof.
  destruct (some_readable t) as (H1 & H2 & H3). do 3 (split; [assumption|]).
  split; [exact some_insn_texts|]. split; [exact some_pe_plain|]. split; [exact some_pe_apart|exact some_die].
Qed.

(** ** C89, C92 *)

(** The entry behind the expression that ends too early is not shown, and the
    program ends as if all was well. *)
Theorem cut_dump : forall md,
  Forall dd_typed [cut_dd_fde; some_dd_fde] /\
  dd_said md ElfX86_64 [cut_dd_fde; some_dd_fde] None =
  ([ Out "Exception handling frame information for section .eh_frame"; Out ""; Out "0x0000007c: FDE";
     Out "        length: 0x0000001c"; Out "   CIE_pointer: 0x00000000"; Out "    start_addr: 0x0000000000001020";
     Out "    range_size: 0x0000000000000010 (end_addr = 0x0000000000001030)"; Out "  Instructions:";
     Out "                DW_CFA_def_cfa_expression (...)"; Out "                  DW_OP_register_offset RSP 8 0";
     ErrOut "Failed to dump 'a.out': GimliError(Error19)" ], Ok tt).
Proof. intros md. split; [some_typed|]. destruct md as [[] [] ? ?]; vm_compute; reflexivity. Qed.
(** The same if gimli cannot go on. *)
Theorem stopped_dump : forall md,
  dd_said md ElfX86_64 [] (Some (GimliError 7)) =
  ([ Out "Exception handling frame information for section .eh_frame"; ErrOut "Failed to dump 'a.out': GimliError(Error7)" ], Ok tt).
Proof. intros md. destruct md as [[] [] ? ?]; vm_compute; reflexivity. Qed.
Theorem dd_status_silent :
  ~ (forall p md path file ents ev, dd_entries_of md file = Some ents -> Forall dd_typed (dde_list ents) ->
       dwarfdump_main p md (Some (path, Some file)) = (ev, Ok tt) -> Forall (printable md) (dde_list ents) /\ dde_end ents = None).
Proof.
  intros H. destruct (cut_dump rel64) as [Ht Hr].
  destruct (H some_dd rel64 "a.out" _ _ _ (dd_of_entries rel64 ElfX86_64 [cut_dd_fde; some_dd_fde] None) Ht Hr) as [Hp _].
  destruct (Forall_inv Hp) as [Hd _]. cbn in Hd. specialize (Hd (IDefCfaExpression cut_expr) cut_expr (or_introl eq_refl) eq_refl).
  discriminate Hd.
Qed.

(** All entries are shown if expressions can be decoded. *)
Theorem dd_others_shown p md path file ents ev o :
  plain_texts (pd p) (dd_table (dd_arch file)) -> pe_plain p ->
  dd_entries_of md file = Some ents -> Forall dd_typed (dde_list ents) ->
  Forall (printable md) (dde_list ents) ->
  dwarfdump_main p md (Some (path, Some file)) = (ev, o) ->
  o = Ok tt /\ exists whole views, stdout_of ev = dd_title :: whole /\ read_dwarfdump whole = Some views /\
    Forall2 (entry_shown p (dd_table (dd_arch file))) (dde_list ents) views.
Proof.
  intros Hp Hpe He Ht Ha H.
  destruct (main_printed p md path file ents ev o He Ht H) as (pre & post & rest & El & _ & Hs & Hr).
  assert (Hb : Forall (printable md) post) by (rewrite El in Ha; apply Forall_app in Ha; apply Ha).
  destruct Hr as [(-> & -> & Ho & _)|(e & post' & -> & Hx)].
  - split; [exact Ho|]. rewrite !app_nil_r in *. subst pre.
    exists (flat_map (entry_lines p (dd_table (dd_arch file)) (pe_text p)) (dde_list ents)), (map (view_entry p (dd_table (dd_arch file)) (pe_view p)) (dde_list ents)).
    split; [exact Hs|]. split; [apply (entries_read _ _ _ (pe_view p)); [assumption|apply pe_view_read; assumption|assumption|lia]|].
    apply forall2_map; intros e Hin; apply entry_view_shown; [exact Hp|]; rewrite Forall_forall in Ht; apply Ht, Hin.
  - exfalso. pose proof (Forall_inv Hb) as [H1 H2]. destruct Hx as [(Hx & _)|(_ & Hx & _)]; contradiction.
Qed.
Theorem dd_others_hidden :
  ~ (forall p md path file ents ev o, plain_texts (pd p) (dd_table (dd_arch file)) -> pe_plain p ->
       dd_entries_of md file = Some ents -> Forall dd_typed (dde_list ents) ->
       dwarfdump_main p md (Some (path, Some file)) = (ev, o) ->
       forall off n ci f, In (DdPartial off n ci f) (dde_list ents) -> In (fmt_hex_alt_pad 64 10 off ++ ": FDE") (stdout_of ev)).
Proof.
  intros H. destruct (cut_dump rel64) as [Ht Hr].
  specialize (H some_dd rel64 "a.out" _ _ _ _ (proj1 (proj2 (some_dd_readable _))) some_pe_plain
    (dd_of_entries rel64 ElfX86_64 [cut_dd_fde; some_dd_fde] None) Ht Hr _ _ _ _ (or_intror (or_introl eq_refl))).
  vm_compute in H. repeat (destruct H as [H|H]; [discriminate H|]). exact H.
Qed.
Lemma some_printable md : Forall (printable md) [DdCie some_cie; some_dd_fde; bad_dd_fde; odd_dd_fde].
Proof.
  repeat (constructor; [split|]); try constructor; cbn;
    try (intros i x Hin Hb; repeat (destruct Hin as [<-|Hin]; [try discriminate Hb; injection Hb as <-; reflexivity|]); destruct Hin);
    try (intros [Hx _]; vm_compute in Hx; congruence); try tauto.
Qed.

(** ** C90 *)

Theorem dd_crashes :
  (forall p md, snd (dwarfdump_main p md None) = Panic) /\
  (forall p md path m, snd (dwarfdump_main p md (Some (path, Some {| dd_elf := file_of m []; dd_parse := None |}))) = Panic) /\
  Forall dd_typed [last_dd_fde] /\ dd_said dev64 ElfX86_64 [last_dd_fde] None =
    ([ Out "Exception handling frame information for section .eh_frame"; Out ""; Out "0x0000009c: FDE";
       Out "        length: 0x0000001c"; Out "   CIE_pointer: 0x00000000"; Out "    start_addr: 0xfffffffffffffff0" ], Panic) /\
  snd (dd_said rel64 ElfX86_64 [last_dd_fde] None) = Ok tt.
Proof.
  split; [reflexivity|]. split; [reflexivity|]. split; [some_typed|]. split; vm_compute; reflexivity.
Qed.
Theorem dd_no_crash p md path file : dd_file_typed md file -> dd_entries_of md file <> None ->
  (overflow_checks md = false \/
   forall ents o n ci f, dd_entries_of md file = Some ents -> In (DdPartial o n ci (inl f)) (dde_list ents) -> dd_start f + dd_len f < 2 ^ 64) ->
  snd (dwarfdump_main p md (Some (path, Some file))) <> Panic.
Proof.
  intros Ht Hs Ho H. apply dd_crash_iff in H; [|exact Ht]. destruct H as [H|(ents & pre & e & post & He & El & _ & Hp)]; [exact (Hs H)|].
  destruct e as [c|o n ci [f|g]]; cbn [past_end] in Hp; try contradiction. destruct Hp as [H1 H2].
  destruct Ho as [Ho|Ho]; [congruence|]. specialize (Ho ents o n ci f He). rewrite El in Ho. specialize (Ho (in_elt _ _ _)). lia.
Qed.

(** ** C91 *)

Definition bare_dd (pr : printers) : printers_dd := PrintersDd pr (fun _ => "") (fun _ => "").
Theorem dd_names m : names_right m (fun pr r => dd_register (bare_dd pr) m r) <->
  match m with ElfX86_64 | ElfI386 | ElfArm | ElfOther _ _ => True | _ => False end.
Proof.
  change (names_right m (fun pr r => register_text pr (dd_table m) r) <->
    match m with ElfX86_64 | ElfI386 | ElfArm | ElfOther _ _ => True | _ => False end).
  rewrite names_right_iff. destruct m; cbn; intuition discriminate.
Qed.
(** Where there is no name, there is the number. *)
Theorem dd_names_or_numbers p m r : m <> ElfAarch64 -> 0 <= r < 2 ^ 16 ->
  register_shown (pd p) (names_for m) r (dd_register p m r) \/ number 10 (dd_register p m r) = Some r.
Proof.
  intros Hm Hr. assert (H : dd_table m = names_for m \/ dd_table m = None) by (destruct m; cbn; auto; contradiction).
  unfold dd_register. pose proof (register_shown_text (pd p) (dd_table m) r ltac:(lia)) as Hs.
  destruct H as [H|H]; [left; rewrite <- H; exact Hs|right]. rewrite H in *. exact Hs.
Qed.
(** The name of a register of another architecture. *)
Theorem dd_names_confused :
  pr_register table_names TAArch64 0 = Some "x0" /\ pr_register table_names TArm 0 = Some "r0" /\
  dd_register (bare_dd table_names) ElfAarch64 0 = "r0".
Proof. repeat split. Qed.

(** ** C93 *)

Definition cie_enc (e : Z) : dd_entry := DdCie (Cie 0 0x18 1 1 (-8) 16 (Some e) None (Some 0x1b) (Insns [INop] None)).
Theorem dd_bit_lost : forall md m,
  Forall dd_typed [cie_enc 0x1b] /\ Forall dd_typed [cie_enc 0x9b] /\
  dd_said md m [cie_enc 0x1b] None = dd_said md m [cie_enc 0x9b] None /\ snd (dd_said md m [cie_enc 0x1b] None) = Ok tt /\
  stderr_of (fst (dd_said md m [cie_enc 0x1b] None)) = [] /\ 0x1b <> 0x9b.
Proof.
  intros md m. assert (H : forall e, 0 <= e < 256 -> Forall dd_typed [cie_enc e]).
  { intros e He. constructor; [|constructor]. cbn [dd_typed cie_enc]. unfold cie_typed, in_u64, byte_typed. cbn -[Z.pow]. unfold byte_typed.
    repeat match goal with |- _ /\ _ => split | |- True => exact I | |- _ <= _ => lia | |- _ < _ => lia end. repeat constructor. }
  split; [apply H; lia|]. split; [apply H; lia|]. destruct md as [[] [] ? ?], m; vm_compute; repeat split; discriminate.
Qed.
