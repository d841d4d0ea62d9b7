(** Specification of what the first-generation converter prints: how a person
    reads it.  Nothing here uses the formatting functions of [Text.v], [Loud.v]
    and [V1Loud.v]. *)
From Coq Require Import String Ascii.
From Verif Require Export OperandSpec V1Loud.
Local Open Scope string_scope.

(** ** Expressions *)

(** The expression can be decoded to its end. *)
Definition well_formed (x : expression) : bool := match ex_end x with None => true | Some _ => false end.
(** All expressions that the dump of the row spells out can be decoded. *)
Definition row_printable (r : dw_row) : bool :=
  match dr_cfa r with CfaExpression x => well_formed x | CfaReg _ _ => true end &&
  forallb (fun p => match snd p with RExpression x => well_formed x | _ => true end) (dr_regs r).

(** An expression is shown as lines with one operation each, indented. *)
Fixpoint unindent (s : string) : string :=
  match s with
  | String c t => if Ascii.eqb c " " then unindent t else s
  | "" => ""
  end.
Definition expression_lines (s : string) : list string :=
  match s with "" => [] | _ => map unindent (split_at newline_char "" s) end.
Definition first_word_of (s : string) : string := match upto " " s with Some (name, _) => name | None => s end.
Definition expression_shown (pr : printers) (t : option reg_table) (x : expression) (s : string) : Prop :=
  Forall2 (fun o line => (renamed o = false -> dwarf_op o (first_word_of line)) /\ operands_shown pr t true o line)
    (ex_ops x) (expression_lines s).

(** What the text of other crates must look like. *)
Definition graphic (c : ascii) : bool := let n := N_of_ascii c in ((33 <=? n) && (n <=? 126))%N.
Definition tidy (s : string) : Prop :=
  without newline_char s /\ (exists c u, s = String c u /\ graphic c = true) /\
  (exists u c, s = u ++ String c "" /\ graphic c = true).
Record tidy_texts (pr : printers) (t : option reg_table) : Prop := TidyTexts {
  td_names : forall r n, reg_name pr t r = Some n -> tidy n;
  td_op : forall o, tidy (pr_op pr o);
  td_op_name : forall o, after "DW_OP_" (pr_op pr o) = None;
  td_die : forall d, tidy (pr_die pr d) }.

(** Rules: expressions are spelled out. *)
Definition v1_rule_shown (p : printers1) (t : option reg_table) (rule : reg_rule) (s : string) : Prop :=
  match rule with
  | RExpression x => expression_shown (p1 p) t x s
  | _ => rule_shown (p1 p) t rule s
  end.
Definition v1_cfa_shown (p : printers1) (t : option reg_table) (c : cfa_rule) (s : string) : Prop :=
  match c with
  | CfaExpression x => expression_shown (p1 p) t x s
  | _ => cfa_shown (p1 p) t c s
  end.

(** ** Register names *)

(** The names of the architecture. *)
Definition names_for (m : elf_arch) : option reg_table :=
  match m with
  | ElfX86_64 | ElfX86_64_X32 => Some TX86_64
  | ElfI386 => Some TX86
  | ElfAarch64 => Some TAArch64
  | ElfArm => Some TArm
  | ElfRiscv32 | ElfRiscv64 => Some TRiscV
  | ElfLoongArch64 => Some TLoongArch
  | _ => None
  end.
(** The text of registers is that of [m], whatever the tables say. *)
Definition names_right (m : elf_arch) (show : printers -> Z -> string) : Prop :=
  forall pr r, 0 <= r < 2 ^ 16 -> register_shown pr (names_for m) r (show pr r).

(** ** Reports *)

(** The row cannot be expressed. *)
Definition v1_lost (r : dw_row) : Prop := forall base cfa ra fp, ~ v1_representable r base cfa ra fp.
Definition v1_cfa_fine (r : dw_row) : Prop :=
  exists base cfa, dr_cfa r = CfaReg (reg_base Amd64 base) cfa /\ in_i32 cfa.
(** The CFA can be expressed, and there is a rule for the frame pointer that
    cannot be. *)
Definition v1_fp_odd (r : dw_row) : Prop :=
  v1_cfa_fine r /\ dr_register r (reg_fp Amd64) <> RUndefined /\ forall o, dr_register r (reg_fp Amd64) <> ROffset o.

Inductive v1_reason : Type :=
| V1Register (name : string)
| V1Expression
| V1CfaOffset (n : Z)
| V1Offset (z : Z)
| V1RaRule (rule : string).
Definition read_v1_reason (s : string) : option v1_reason :=
  match after "unsupported CFA source register " s with
  | Some n => Some (V1Register n)
  | None =>
  match after "DWARF FDE unwind table row requires evaluating a DWARF expression: " s with
  | Some _ => Some V1Expression
  | None =>
  match after "DWARF FDE register recovery offset " s with
  | Some u =>
      match upto " " u with
      | Some (n, rest) => if String.eqb rest "was outside the bounds of an i32" then option_map V1CfaOffset (number 16 n) else None
      | None => None
      end
  | None =>
  match after "DWARF register offset " s with
  | Some u =>
      match upto " " u with
      | Some (n, rest) => match after "was outside the bounds of an" rest with Some _ => option_map V1Offset (integer n) | None => None end
      | None => None
      end
  | None => option_map V1RaRule (after "Unsupported recovery rule for RA: " s)
  end end end end.
Definition v1_reason_holds (p : printers1) (m : elf_arch) (r : dw_row) (why : v1_reason) : Prop :=
  match why with
  | V1Register n => exists reg o, dr_cfa r = CfaReg reg o /\ reg <> reg_sp Amd64 /\ reg <> reg_fp Amd64 /\
      register_shown (p1 p) (Some TX86_64) reg n
  | V1Expression => exists x, dr_cfa r = CfaExpression x
  | V1CfaOffset n => exists reg, dr_cfa r = CfaReg reg (signed64 n) /\ ~ in_i32 (signed64 n)
  | V1Offset z => ~ in_i32 z /\ (dr_register r (reg_fp Amd64) = ROffset z \/ dr_register r (reg_ra Amd64) = ROffset z)
  | V1RaRule s => (forall o, dr_register r (reg_ra Amd64) <> ROffset o) /\
      v1_rule_shown p (rule_table m) (dr_register r (reg_ra Amd64)) s
  end.

(** What is reported of a row: a note on the frame pointer, and why the row is
    lost. *)
Definition fp_note (p : printers1) (m : elf_arch) (r : dw_row) (l : list string) : Prop :=
  (v1_fp_odd r -> exists w s, l = [w] /\ after "unsupported recovery rule for RBP: " w = Some s /\
     v1_rule_shown p (rule_table m) (dr_register r (reg_fp Amd64)) s) /\
  (~ v1_fp_odd r -> l = []).
Definition lost_note (p : printers1) (m : elf_arch) (r : dw_row) (l : list string) : Prop :=
  (v1_lost r -> exists h causes why, l = [pr_chain p (h :: causes)] /\ read_v1_reason h = Some why /\
     v1_reason_holds p m r why) /\
  (~ v1_lost r -> l = []).
Definition v1_reported (p : printers1) (m : elf_arch) (r : dw_row) (l : list string) : Prop :=
  exists a b, l = (a ++ b)%list /\ fp_note p m r a /\ lost_note p m r b.

(** The rows of all functions, in order. *)
Definition all_rows (l : list dw_entry) : list dw_row := flat_map dw_rows_of (functions l).

(** ** The dump *)

(** A row with its line about SFrame: CFA, RA, FP. *)
Record row_view1 : Type := RowView1 {
  rw_row : row_view;
  rw_sframe : option (Z * option Z * option Z) }.
Record fde_view1 : Type := FdeView1 {
  fw_start : Z;
  fw_len : Z;
  fw_end : Z;
  fw_insns : list insn_view;
  fw_broken : option string;
  fw_rows : list row_view1 }.

(** [Some(-8)] or [None] *)
Definition read_option (s : string) : option (option Z) :=
  if String.eqb s "None" then Some None
  else match after "Some(" s with
       | Some t => match drop_end ")" t with Some n => option_map Some (integer n) | None => None end
       | None => None
       end.
(** [FrameRowOffsets { cfa: 16, ra: Some(-8), fp: None }] *)
Definition read_offsets (s : string) : option (Z * option Z * option Z) :=
  match after "FrameRowOffsets { cfa: " s with
  | Some s =>
      match upto "," s with
      | Some (cfa, s) =>
          match after " ra: " s with
          | Some s =>
              match upto "," s with
              | Some (ra, s) =>
                  match after " fp: " s with
                  | Some s =>
                      match upto " " s with
                      | Some (fp, "}") =>
                          match integer cfa, read_option ra, read_option fp with
                          | Some cfa, Some ra, Some fp => Some (cfa, ra, fp)
                          | _, _, _ => None
                          end
                      | _ => None
                      end
                  | None => None
                  end
              | None => None
              end
          | None => None
          end
      | None => None
      end
  | None => None
  end.

(** Row lines, what belongs to the row in front of them first. *)
Fixpoint read_rows1 (l : list string)
  : option (list (string * string) * option (Z * option Z * option Z) * list row_view1) :=
  match l with
  | [] => Some ([], None, [])
  | x :: t =>
      match read_reg x with
      | Some p => match read_rows1 t with Some (regs, sf, rows) => Some (p :: regs, sf, rows) | None => None end
      | None =>
          match after "    sframe: " x with
          | Some o =>
              match read_offsets o, read_rows1 t with
              | Some o, Some ([], None, rows) => Some ([], Some o, rows)
              | _, _ => None
              end
          | None =>
              match read_row_head x, t with
              | Some (a, b), c :: t =>
                  match after "    cfa:    " c, read_rows1 t with
                  | Some cfa, Some (regs, sf, rows) => Some ([], None, RowView1 (RowView a b cfa regs) sf :: rows)
                  | _, _ => None
                  end
              | _, _ => None
              end
          end
      end
  end.
Definition read_function1 (l : list string) : option (fde_view1 * list string) :=
  match l with
  | fde :: a :: b :: i :: t =>
      if String.eqb fde "FDE:" && String.eqb i "  Instructions:" then
        match after " start_address: 0x" a, enclosed "    range_size: 0x" " " b with
        | Some start, Some (len, e) =>
            match number 16 start, enclosed "(end_addr = 0x" ")" e, paragraph t with
            | Some start, Some (e, ""), Some (body, heading :: t) =>
                if String.eqb heading "Rows:" then
                  match read_insns body, paragraph t with
                  | ([], is, broken), Some (body, rest) =>
                      match read_rows1 body with
                      | Some ([], None, rows) => Some (FdeView1 start len e is broken rows, rest)
                      | _ => None
                      end
                  | _, _ => None
                  end
                else None
            | _, _, _ => None
            end
        | _, _ => None
        end
      else None
  | _ => None
  end.
Fixpoint read_functions1 (n : nat) (l : list string) : option (list fde_view1) :=
  match l, n with
  | [], _ => Some []
  | _, O => None
  | _, S n =>
      match read_function1 l with
      | Some (v, rest) => option_map (cons v) (read_functions1 n rest)
      | None => None
      end
  end.
Definition read_dump1 (l : list string) : option (list fde_view1) := read_functions1 (Datatypes.length l) l.

(** What the views say. *)
Definition sframe_shown (r : dw_row) (v : option (Z * option Z * option Z)) : Prop :=
  match v with
  | Some (cfa, Some ra, fp) => exists base, v1_representable r base cfa ra fp
  | Some (_, None, _) => False
  | None => v1_lost r
  end.
Definition row_shown1 (p : printers1) (m : elf_arch) (r : dw_row) (v : row_view1) : Prop :=
  rv_start (rw_row v) = dr_start r /\ rv_end (rw_row v) = dr_end r /\
  v1_cfa_shown p (Some TX86_64) (dr_cfa r) (rv_cfa (rw_row v)) /\
  Forall2 (fun q s => register_shown (p1 p) (Some TX86_64) (fst q) (fst s) /\
                      v1_rule_shown p (rule_table m) (snd q) (snd s)) (dr_regs r) (rv_regs (rw_row v)) /\
  sframe_shown r (rw_sframe v).
Definition function_shown1 (p : printers1) (m : elf_arch) (f : dw_fde) (v : fde_view1) : Prop :=
  fw_start v = df_start f /\ fw_len v = df_len f /\ fw_end v = df_start f + df_len f /\
  Forall2 (insn_spelled (p1 p) (Some TX86_64) true) (is_list (df_insns f)) (fw_insns v) /\
  fw_broken v = option_map (pr_gimli (p1 p)) (is_end (df_insns f)) /\
  Forall2 (row_shown1 p m) (dw_rows_of f) (fw_rows v).

(** The lines about sections in front of the dump: [.text:         0x00001000] *)
Definition read_section_line (s : string) : option (string * Z) :=
  match upto ":" s with
  | Some (name, t) =>
      match after "0x" (unindent t) with
      | Some n => option_map (pair name) (number 16 n)
      | None => None
      end
  | None => None
  end.
(** Those sections of the file that are looked up. *)
Definition sections_shown (l : list (string * Z)) (out : list string) : Prop :=
  exists found, map read_section_line out = map Some found /\
    (forall name a, In (name, a) found <->
       In name [".eh_frame_hdr"; ".eh_frame"; ".text"; ".got"] /\ has_section l name a) /\
    NoDup (map fst found).

(** ** Crashes *)

(** The row stops the program: it lies in front of its function and the
    subtraction is checked, or an expression in it cannot be decoded. *)
Definition crash_row (md : mode) (f : dw_fde) (r : dw_row) : Prop :=
  (off f r < 0 /\ overflow_checks md = true) \/ (0 <= off f r < i32_max /\ row_printable r = false).
(** Everything in front of it is converted. *)
Definition v1_crash (md : mode) (ents : dw_entries) : Prop :=
  exists pre f post l r l' en,
    ents_list ents = (pre ++ DwGoodFde f :: post)%list /\ Forall (v1_entry_fine row_printable) pre /\
    df_start f <= i32_max /\ df_len f <= i32_max /\ df_dump f = None /\
    df_rows f = inl (DwRows (l ++ r :: l')%list en) /\ v1_rows_fine row_printable f l /\ crash_row md f r.

(** ** Telling expressions apart *)

(** The same operation, or two that the library shows the same. *)
Definition same_operation (pr : printers) (o o' : operation) : Prop :=
  o = o' \/ exists c c', o = OpOther c /\ o' = OpOther c' /\ pr_op pr o = pr_op pr o'.
Definition same_operations (pr : printers) (x y : expression) : Prop :=
  Forall2 (same_operation pr) (ex_ops x) (ex_ops y).
Definition insn_alike (pr : printers) (i i' : insn) : Prop :=
  forall x y, block_of i = Some x -> block_of i' = Some y -> same_operations pr x y.
(** The text of other instructions is not that of one that has a name. *)
Definition insn_texts (pr : printers) : Prop := forall c, after "DW_CFA_" (pr_insn pr (IOther c)) = None.
(** The same up to what the library shows the same. *)
Definition insn_same (pr : printers) (i i' : insn) : Prop :=
  match dwarf_insn i, dwarf_insn i' with
  | Some (name, ops), Some (name', ops') => name = name' /\ ops = ops'
  | None, None => pr_insn pr i = pr_insn pr i'
  | _, _ => False
  end /\
  match block_of i, block_of i' with
  | Some x, Some y => same_operations pr x y
  | None, None => True
  | _, _ => False
  end.
Definition insns_same (pr : printers) (is is' : insns) : Prop :=
  Forall2 (insn_same pr) (is_list is) (is_list is') /\
  option_map (pr_gimli pr) (is_end is) = option_map (pr_gimli pr) (is_end is').
Definition row_alike (pr : printers) (r r' : dw_row) : Prop :=
  dr_start r = dr_start r' /\ dr_end r = dr_end r' /\
  (forall x y, dr_cfa r = CfaExpression x -> dr_cfa r' = CfaExpression y -> same_operations pr x y) /\
  Forall2 (fun q q' => fst q = fst q' /\
             forall x y, snd q = RExpression x -> snd q' = RExpression y -> same_operations pr x y) (dr_regs r) (dr_regs r').
(** The same ranges and instructions, and in the rows the same expressions where
    both have one. *)
Definition function_alike (pr : printers) (f f' : dw_fde) : Prop :=
  df_start f = df_start f' /\ df_len f = df_len f' /\
  insns_same pr (df_insns f) (df_insns f') /\
  Forall2 (row_alike pr) (dw_rows_of f) (dw_rows_of f').
