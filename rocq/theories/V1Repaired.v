(** The first-generation converter with some of ten repairs made.  Nothing here is in /repo:
    this is what dwarf2sframe/src/main.rs:30-350 would be after small changes.

    - [v1_skip]: rows of no width are left out;
    - [v1_rbp]: same-value is no odd rule for RBP, and a row with an odd one is left empty;
    - [v1_print]: an expression that cannot be decoded is shown as such, not unwrapped;
    - [v1_refuse]: a row in front of its function is an error in all builds, and a row that
      [row] refuses is not tried again;
    - [v1_listing]: an error while instructions are listed ends the listing only;
    - [v1_end]: a function that ends beyond [i32::MAX] is refused;
    - [v1_stack]: a row with a rule for RSP other than CFA+0 is left empty;
    - [v1_column]: so are the rows of a function with another return address register;
    - [v1_machine]: files other than little-endian x86-64 are refused, and the section is
      written in little-endian order;
    - [v1_setup]: the parser is set up as in dwarfdump. *)
From Coq Require Import String Ascii.
From Verif Require Import Base BTree Raw Read Write Convert Tools Text Loud.
From Verif Require Export V1Loud.
From Verif Require Import ConvRepaired.
Local Open Scope string_scope.

Record v1fixes : Type := V1Fixes {
  v1_skip : bool; v1_rbp : bool; v1_print : bool; v1_refuse : bool; v1_listing : bool;
  v1_end : bool; v1_stack : bool; v1_column : bool; v1_machine : bool; v1_setup : bool }.
Definition no_v1fixes : v1fixes := V1Fixes false false false false false false false false false false.
Definition all_v1fixes : v1fixes := V1Fixes true true true true true true true true true true.

(** Text of an expression that may be cut short. *)
Definition undecodable : string := "<cannot be decoded>".
Definition shown_or_panic {E} (fx : v1fixes) (o : option string) : loud E string :=
  if v1_print fx then quiet (Ok (match o with Some s => s | None => undecodable end)) else or_panic o.

(** Lines 193-199. *)
Fixpoint v1_regs_print_with {E} (fx : v1fixes) (p : printers1) (m : elf_arch) (l : list (Z * reg_rule)) : loud E unit :=
  match l with
  | [] => say []
  | (reg, rule) :: t =>
      let! s := shown_or_panic fx (v1_rule_text p m rule) in
      let! _ := say [Out ("    reg:    " ++ v1_register p reg ++ " = " ++ s)] in
      v1_regs_print_with fx p m t
  end.

(** Lines 161-199. *)
Definition v1_row_print_with {E} (fx : v1fixes) (p : printers1) (m : elf_arch) (r : dw_row) : loud E unit :=
  let! _ := say [Out ("  - offset: " ++ fmt_hex_alt_pad 64 10 (dr_start r) ++ " (end = " ++ fmt_hex_alt_pad 64 10 (dr_end r) ++ ")")] in
  let! c := shown_or_panic fx (v1_cfa_text p (dr_cfa r)) in
  let! _ := say [Out ("    cfa:    " ++ c)] in
  v1_regs_print_with fx p m (dr_regs r).

(** The closure, lines 200-284, up to calling [row]; [column] is the return address register
    of the function's CIE. *)
Definition v1_offsets_loud (fx : v1fixes) (p : printers1) (m : elf_arch) (column start : Z) (r : dw_row)
  : loud (list string) row :=
  let! cfa :=
    quiet match dr_cfa r with
    | CfaReg reg o =>
        if (reg =? 6)%Z then Ok (Fp, o)
        else if (reg =? 7)%Z then Ok (Sp, o)
        else Err ["unsupported CFA source register " ++ v1_register p reg]
    | CfaExpression x =>
        Err ["DWARF FDE unwind table row requires evaluating a DWARF expression: " ++ pr_eval p x]
    end in
  let! _ :=
    quiet (if in_i32b (snd cfa) then Ok tt
           else Err ["DWARF FDE register recovery offset " ++ fmt_hex 64 (snd cfa) ++ " was outside the bounds of an i32"]) in
  let! _ :=
    if v1_stack fx && negb (sp_is_cfa Amd64 r) then
      let! s := shown_or_panic fx (v1_rule_text p m (dr_register r 7)) in
      quiet (Err ["unsupported recovery rule for RSP: " ++ s])
    else quiet (Ok tt) in
  let! _ :=
    quiet (if v1_column fx && negb (column =? 16)%Z
           then Err ["unsupported return address register " ++ v1_register p column] else Ok tt) in
  let! fp :=
    match dr_register r 6 with
    | ROffset o =>
        quiet (if in_i32b o then Ok (Some o)
               else Err ["DWARF register offset " ++ fmt_dec o ++ " was outside the bounds of an" ++ newline ++
                           "                                 i32"; int_error])
    | RUndefined => quiet (Ok None)
    | rule =>
        if v1_rbp fx && match rule with RSameValue => true | _ => false end then quiet (Ok None)
        else
          let! s := shown_or_panic fx (v1_rule_text p m rule) in
          if v1_rbp fx then quiet (Err ["unsupported recovery rule for RBP: " ++ s])
          else
            let! _ := say [ErrOut ("unsupported recovery rule for RBP: " ++ s)] in
            quiet (Ok None)
    end in
  let! ra :=
    match dr_register r 16 with
    | ROffset o =>
        quiet (if in_i32b o then Ok o
               else Err ["DWARF register offset " ++ fmt_dec o ++ " was outside the bounds of an i32"; int_error])
    | rule =>
        let! s := shown_or_panic fx (v1_rule_text p m rule) in
        quiet (Err ["Unsupported recovery rule for RA: " ++ s])
    end in
  let offsets := {| ro_cfa := snd cfa; ro_ra := Some ra; ro_fp := fp |} in
  let! _ := say [Out ("    sframe: " ++ offsets_text offsets)] in
  quiet (Ok (row_new (fst cfa) start offsets)).

(** Lines 200-307. *)
Definition v1_add_row_with (fx : v1fixes) (p : printers1) (m : elf_arch) (column : Z) (b : fdb) (start : Z) (r : dw_row)
  : loud v1_error fdb :=
  let res := v1_offsets_loud fx p m column start r in
  let invalid (chain : list string) :=
    ((fst res ++ [ErrOut (pr_chain p chain)])%list, map_err V1InvalidRow (fdb_row b (row_invalid start))) in
  match snd res with
  | Ok nr =>
      match fdb_row b nr with
      | Ok b' => (fst res, Ok b')
      | Err er =>
          if v1_refuse fx then (fst res, Err (V1InvalidRow er))
          else invalid ["failed to build a row for the FDE"; row_error_text er]
      | Panic => (fst res, Panic)
      end
  | Err chain => invalid chain
  | Panic => (fst res, Panic)
  end.

(** The row loop, lines 148-308. *)
Fixpoint v1_rows_with (fx : v1fixes) (p : printers1) (m : elf_arch) (md : mode) (column : Z) (f : dw_fde)
    (l : list dw_row) (b : fdb) : loud v1_error fdb :=
  match l with
  | [] => quiet (Ok b)
  | r :: t =>
      if v1_skip fx && (dr_start r =? dr_end r)%Z then v1_rows_with fx p m md column f t b
      else if v1_refuse fx && (dr_start r <? df_start f)%Z then quiet (Err V1RowOffset)
      else
        let! d := quiet (sub_u64 md (dr_start r) (df_start f)) in
        if negb (row_start_ok d) then quiet (Err V1RowOffset)
        else
          let! _ := v1_row_print_with fx p m r in
          let! b' := v1_add_row_with fx p m column b d r in
          v1_rows_with fx p m md column f t b'
  end.

(** One FDE, lines 98-313. *)
Definition v1_fde_with (fx : v1fixes) (p : printers1) (m : elf_arch) (md : mode) (column : dw_fde -> Z) (s : sfb) (f : dw_fde)
  : loud v1_error sfb :=
  if (i32_max <? df_start f)%Z then quiet (Err (V1StartTooLarge (df_start f)))
  else if ((i32_max <? df_len f)%Z || v1_end fx && (i32_max <? df_start f + df_len f)%Z)
  then quiet (Err (V1LenTooLarge (df_len f)))
  else
    let b := fdb_new (sb_options s) (as_s 32 (df_start f)) (as_u 32 (df_len f)) in
    match df_rows f with
    | inr g => quiet (Err (V1Rows g))
    | inl rows =>
        let! _ := say [ Out "FDE:"; Out (" start_address: " ++ fmt_hex_alt_pad 64 10 (df_start f)) ] in
        let! e := quiet (add_u64 md (df_start f) (df_len f)) in
        let! _ := say [ Out ("    range_size: " ++ fmt_hex_alt_pad 64 10 (df_len f) ++
                          " (end_addr = " ++ fmt_hex_alt_pad 64 10 e ++ ")") ] in
        let! _ := if v1_listing fx then say (fst (v1_dump_insns p (df_insns f)))
                  else loud_err V1Dump (v1_dump_insns p (df_insns f)) in
        let! _ := say [ Out ""; Out "Rows:" ] in
        let! b := v1_rows_with fx p m md (column f) f (rows_list rows) b in
        match rows_end rows with
        | Some g => quiet (Err (V1NextRow g))
        | None =>
            let! b := quiet (map_err (fun _ => V1OutOfFuel) (merge_adjacent_fres b)) in
            let! s' := quiet (lift (sfb_fde s b)) in
            let! _ := say [ Out "" ] in
            quiet (Ok s')
        end
    end.

Fixpoint v1_entries_with (fx : v1fixes) (p : printers1) (m : elf_arch) (md : mode) (column : dw_fde -> Z)
    (l : list dw_entry) (s : sfb) : loud v1_error sfb :=
  match l with
  | [] => quiet (Ok s)
  | DwCie :: t => v1_entries_with fx p m md column t s
  | DwBadFde g :: _ => quiet (Err (V1Fde g))
  | DwGoodFde f :: t =>
      let! s' := v1_fde_with fx p m md column s f in
      v1_entries_with fx p m md column t s'
  end.

(** Lines 81-316. *)
Definition v1_convert_with (fx : v1fixes) (p : printers1) (m : elf_arch) (md : mode) (column : dw_fde -> Z) (ents : dw_entries)
  : loud v1_error sfb :=
  let! s := v1_entries_with fx p m md column (ents_list ents) (sfb_new v1_options) in
  match ents_end ents with
  | Some g => quiet (Err (V1Entry g))
  | None => quiet (map_err (fun _ => V1OutOfFuel) (merge_adjacent_fdes md s))
  end.

(** The errors there are, and one more. *)
Inductive v1_repair_error : Type :=
| V1AsBefore (er : v1_error)
| V1Machine.

(** dwarf2sframe/src/main.rs:52-79 *)
Definition v1_setup_with (fx : v1fixes) (md : mode) (file : elf_file) : parser_setup :=
  if v1_setup fx then dwarfdump_setup md (elf_architecture file) (elf_sections file) else tool_setup md (elf_sections file).
Definition amd64_file (file : elf_file) : bool :=
  match elf_architecture file, elf_endian file with ElfX86_64, RtLittle => true | _, _ => false end.

(** [main], lines 30-350. *)
Definition v1_main_with (fx : v1fixes) (p : printers1) (md : mode) (native : endian) (column : dw_fde -> Z) (input : option elf_file)
  : loud v1_repair_error out_file :=
  match input with
  | None => quiet (Err (V1AsBefore V1Parse))
  | Some file =>
      if v1_machine fx && negb (amd64_file file) then quiet (Err V1Machine)
      else
      match section_by_name ".eh_frame" (elf_sections file) with
      | None => quiet (Err (V1AsBefore V1NoEhFrame))
      | Some _ =>
          match elf_eh_frame file with
          | None => quiet (Err (V1AsBefore V1Decompress))
          | Some parse =>
              let! _ := say (sections_print (elf_sections file)) in
              let! s := loud_err V1AsBefore
                (v1_convert_with fx p (elf_architecture file) md column (parse (v1_setup_with fx md file))) in
              let! bs := quiet (map_err (fun er => V1AsBefore (V1Build er)) (build md (if v1_machine fx then LE else native) s)) in
              quiet (Ok {| out_arch := elf_architecture file; out_endian := elf_endian file; out_sframe := bs |})
          end
      end
  end.
