(** What the first-generation converter prints: [crates/dwarf2sframe/src]
    ([main.rs], [fmthelp.rs], [dump.rs]).

    An event is one [println!] or [eprintln!]; its text can have several lines.
    When [println!] panics because the [Display] of an argument fails, the part
    of the line that is already written is left out. *)
From Coq Require Import String Ascii.
From Verif Require Import Base BTree Raw Read Write Convert Tools Text Loud.
Local Open Scope string_scope.

(** Text of other crates that only this tool prints. *)
Record printers1 : Type := Printers1 {
  p1 : printers;
  pr_eval : expression -> string; (* Debug for gimli::Evaluation *)
  pr_chain : list string -> string (* Debug for an anyhow::Error: its messages, outermost first *) }.

(** [str::trim], for ASCII. *)
Definition is_space (c : ascii) : bool :=
  (let n := N_of_ascii c in (n =? 32)%N || ((9 <=? n)%N && (n <=? 13)%N)).
Fixpoint trim_start (s : string) : string :=
  match s with
  | "" => ""
  | String c t => if is_space c then trim_start t else s
  end.
Fixpoint trim_end (s : string) : string :=
  match s with
  | "" => ""
  | String c t =>
      match trim_end t with
      | "" => if is_space c then "" else String c ""
      | t' => String c t'
      end
  end.
Definition trim (s : string) : string := trim_end (trim_start s).

(** ** fmthelp.rs *)

(** [RegisterRule::regname], lines 27-42. *)
Definition rule_table (m : elf_arch) : option reg_table :=
  match m with
  | ElfX86_64 => Some TX86_64
  | ElfX86_64_X32 => Some TX86
  | ElfAarch64 => Some TAArch64
  | ElfArm => Some TArm
  | ElfRiscv32 | ElfRiscv64 => Some TRiscV
  | ElfLoongArch64 => Some TLoongArch
  | _ => None
  end.
Definition rule_register (p : printers1) (m : elf_arch) (reg : Z) : string := register_text (p1 p) (rule_table m) reg.

(** [dump_expression], lines 70-138, as its callers use it: [None] is
    [fmt::Error]. *)
Definition expression_text (p : printers1) (reg : Z -> string) (i : string) (x : expression) : option string :=
  match ex_end x with
  | Some _ => None
  | None => Some (trim (unlines (map (op_text (p1 p) reg true i) (ex_ops x))))
  end.

(** [Display for RegisterRule], lines 45-68. *)
Definition v1_rule_text (p : printers1) (m : elf_arch) (rule : reg_rule) : option string :=
  match rule with
  | RUndefined => Some "<undefined>"
  | RSameValue => Some "<same>"
  | ROffset o => Some ("*(CFA" ++ fmt_plus o ++ ")")
  | RValOffset o => Some ("CFA" ++ fmt_plus o)
  | RRegister r => Some (rule_register p m r)
  | RConstant c => Some (fmt_dec c)
  | RExpression x => expression_text p (rule_register p m) "        " x
  | RValExpression _ | RArchitectural => Some (pr_rule (p1 p) rule)
  end.

(** ** main.rs *)

(** [register_name], lines 129-132: x86-64 names whatever the architecture. *)
Definition v1_register (p : printers1) (reg : Z) : string := register_text (p1 p) (Some TX86_64) reg.

(** [unwrap], or an argument of [println!] that fails. *)
Definition or_panic {E A} (o : option A) : loud E A := quiet (match o with Some a => Ok a | None => Panic end).

(** Lines 167-191. *)
Definition v1_cfa_text (p : printers1) (c : cfa_rule) : option string :=
  match c with
  | CfaReg reg o => Some (v1_register p reg ++ (if (0 <=? o)%Z then "+" else "-") ++ fmt_dec (Z.abs o))
  | CfaExpression x => expression_text p (v1_register p) "            " x
  end.

(** Lines 193-199. *)
Fixpoint v1_regs_print {E} (p : printers1) (m : elf_arch) (l : list (Z * reg_rule)) : loud E unit :=
  match l with
  | [] => say []
  | (reg, rule) :: t =>
      let! s := or_panic (v1_rule_text p m rule) in
      let! _ := say [Out ("    reg:    " ++ v1_register p reg ++ " = " ++ s)] in
      v1_regs_print p m t
  end.

(** Lines 161-199. *)
Definition v1_row_print {E} (p : printers1) (m : elf_arch) (r : dw_row) : loud E unit :=
  let! _ := say [Out ("  - offset: " ++ fmt_hex_alt_pad 64 10 (dr_start r) ++ " (end = " ++ fmt_hex_alt_pad 64 10 (dr_end r) ++ ")")] in
  let! c := or_panic (v1_cfa_text p (dr_cfa r)) in
  let! _ := say [Out ("    cfa:    " ++ c)] in
  v1_regs_print p m (dr_regs r).

(** [Debug for FrameRowOffsets] (derived), sframe/src/write.rs:546-571. *)
Definition debug_option (v : option Z) : string :=
  match v with Some z => "Some(" ++ fmt_dec z ++ ")" | None => "None" end.
Definition offsets_text (o : row_offsets) : string :=
  "FrameRowOffsets { cfa: " ++ fmt_dec (ro_cfa o) ++ ", ra: " ++ debug_option (ro_ra o) ++ ", fp: " ++ debug_option (ro_fp o) ++ " }".

(** [Display for TryFromIntError]. *)
Definition int_error : string := "out of range integral type conversion attempted".

(** The closure, lines 200-284; the error is the chain of messages.  The line
    break is in the source (lines 238-239). *)
Definition v1_translate_loud (p : printers1) (m : elf_arch) (b : fdb) (start : Z) (r : dw_row) : loud (list string) fdb :=
  let! cfa :=
    quiet match dr_cfa r with
    | CfaReg reg o =>
        if (reg =? 6)%Z then Ok (Fp, o)
        else if (reg =? 7)%Z then Ok (Sp, o)
        else Err ["unsupported CFA source register " ++ v1_register p reg]
    | CfaExpression x =>
        Err ["DWARF FDE unwind table row requires evaluating a DWARF expression: " ++ pr_eval p x]
    end in
  let! _ :=
    quiet (if in_i32b (snd cfa) then Ok tt
           else Err ["DWARF FDE register recovery offset " ++ fmt_hex 64 (snd cfa) ++ " was outside the bounds of an i32"]) in
  let! fp :=
    match dr_register r 6 with
    | ROffset o =>
        quiet (if in_i32b o then Ok (Some o)
               else Err ["DWARF register offset " ++ fmt_dec o ++ " was outside the bounds of an" ++ newline ++
                           "                                 i32"; int_error])
    | RUndefined => quiet (Ok None)
    | rule =>
        let! s := or_panic (v1_rule_text p m rule) in
        let! _ := say [ErrOut ("unsupported recovery rule for RBP: " ++ s)] in
        quiet (Ok None)
    end in
  let! ra :=
    match dr_register r 16 with
    | ROffset o =>
        quiet (if in_i32b o then Ok o
               else Err ["DWARF register offset " ++ fmt_dec o ++ " was outside the bounds of an i32"; int_error])
    | rule =>
        let! s := or_panic (v1_rule_text p m rule) in
        quiet (Err ["Unsupported recovery rule for RA: " ++ s])
    end in
  let offsets := {| ro_cfa := snd cfa; ro_ra := Some ra; ro_fp := fp |} in
  let! _ := say [Out ("    sframe: " ++ offsets_text offsets)] in
  quiet (map_err (fun er => ["failed to build a row for the FDE"; row_error_text er])
           (fdb_row b (row_new (fst cfa) start offsets))).

(** Lines 200-307. *)
Definition v1_add_row_loud (p : printers1) (m : elf_arch) (b : fdb) (start : Z) (r : dw_row) : loud v1_error fdb :=
  let res := v1_translate_loud p m b start r in
  match snd res with
  | Ok b' => (fst res, Ok b')
  | Err chain =>
      ((fst res ++ [ErrOut (pr_chain p chain)])%list, map_err V1InvalidRow (fdb_row b (row_invalid start)))
  | Panic => (fst res, Panic)
  end.

(** The row loop, lines 148-308. *)
Fixpoint v1_rows_loud (p : printers1) (m : elf_arch) (md : mode) (f : dw_fde) (l : list dw_row) (b : fdb)
  : loud v1_error fdb :=
  match l with
  | [] => quiet (Ok b)
  | r :: t =>
      let! d := quiet (sub_u64 md (dr_start r) (df_start f)) in
      if negb (row_start_ok d) then quiet (Err V1RowOffset)
      else
        let! _ := v1_row_print p m r in
        let! b' := v1_add_row_loud p m b d r in
        v1_rows_loud p m md f t b'
  end.

(** dump.rs, called in lines 134-140. *)
Definition v1_dump_insns (p : printers1) (is : insns) : loud gimli_error unit :=
  let! _ := say [Out "  Instructions:"] in
  dump_insn_list (p1 p) (v1_register p) true (is_list is) (is_end is) [].

(** One FDE, lines 98-313. *)
Definition v1_fde_loud (p : printers1) (m : elf_arch) (md : mode) (s : sfb) (f : dw_fde) : loud v1_error sfb :=
  if (i32_max <? df_start f)%Z then quiet (Err (V1StartTooLarge (df_start f)))
  else if (i32_max <? df_len f)%Z then quiet (Err (V1LenTooLarge (df_len f)))
  else
    let b := fdb_new (sb_options s) (as_s 32 (df_start f)) (as_u 32 (df_len f)) in
    match df_rows f with
    | inr g => quiet (Err (V1Rows g))
    | inl rows =>
        let! _ := say [ Out "FDE:"; Out (" start_address: " ++ fmt_hex_alt_pad 64 10 (df_start f)) ] in
        let! e := quiet (add_u64 md (df_start f) (df_len f)) in
        let! _ := say [ Out ("    range_size: " ++ fmt_hex_alt_pad 64 10 (df_len f) ++
                          " (end_addr = " ++ fmt_hex_alt_pad 64 10 e ++ ")") ] in
        let! _ := loud_err V1Dump (v1_dump_insns p (df_insns f)) in
        let! _ := say [ Out ""; Out "Rows:" ] in
        let! b := v1_rows_loud p m md f (rows_list rows) b in
        match rows_end rows with
        | Some g => quiet (Err (V1NextRow g))
        | None =>
            let! b := quiet (map_err (fun _ => V1OutOfFuel) (merge_adjacent_fres b)) in
            let! s' := quiet (lift (sfb_fde s b)) in
            let! _ := say [ Out "" ] in
            quiet (Ok s')
        end
    end.

Fixpoint v1_entries_loud (p : printers1) (m : elf_arch) (md : mode) (l : list dw_entry) (s : sfb) : loud v1_error sfb :=
  match l with
  | [] => quiet (Ok s)
  | DwCie :: t => v1_entries_loud p m md t s
  | DwBadFde g :: _ => quiet (Err (V1Fde g))
  | DwGoodFde f :: t =>
      let! s' := v1_fde_loud p m md s f in
      v1_entries_loud p m md t s'
  end.

(** Lines 81-316. *)
Definition v1_convert_loud (p : printers1) (m : elf_arch) (md : mode) (ents : dw_entries) : loud v1_error sfb :=
  let! s := v1_entries_loud p m md (ents_list ents) (sfb_new v1_options) in
  match ents_end ents with
  | Some g => quiet (Err (V1Entry g))
  | None => quiet (map_err (fun _ => V1OutOfFuel) (merge_adjacent_fdes md s))
  end.

(** Lines 60-79. *)
Definition section_line (l : list (string * Z)) (name label : string) : list event :=
  match section_by_name name l with
  | Some a => [Out (label ++ fmt_hex_alt_pad 64 10 a)]
  | None => []
  end.
Definition sections_print (l : list (string * Z)) : list event :=
  (section_line l ".eh_frame_hdr" ".eh_frame_hdr: " ++ section_line l ".eh_frame" ".eh_frame:     " ++
   section_line l ".text" ".text:         " ++ section_line l ".got" ".got:          ")%list.

(** [main], lines 30-350. *)
Definition v1_main_loud (p : printers1) (md : mode) (native : endian) (input : option elf_file) : loud v1_error out_file :=
  match input with
  | None => quiet (Err V1Parse)
  | Some file =>
      match section_by_name ".eh_frame" (elf_sections file) with
      | None => quiet (Err V1NoEhFrame)
      | Some _ =>
          match elf_eh_frame file with
          | None => quiet (Err V1Decompress)
          | Some parse =>
              let! _ := say (sections_print (elf_sections file)) in
              let! s := v1_convert_loud p (elf_architecture file) md (parse (tool_setup md (elf_sections file))) in
              let! bs := quiet (map_err V1Build (build md native s)) in
              quiet (Ok {| out_arch := elf_architecture file; out_endian := elf_endian file; out_sframe := bs |})
          end
      end
  end.
