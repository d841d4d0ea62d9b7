(** [dwarfdump] with repairs.

    Everything here is [Dwarfdump.v] with seven changes to the source, each of which
    can be switched on: see [dd_repairs].  With none of them it is the program as it
    is ([as_is_main] in [DdRepairedFacts.v]). *)
From Coq Require Import String Ascii.
From Verif Require Import Base BTree Raw Read Write Convert Tools Text Loud Dwarfdump.
Local Open Scope string_scope.

Record dd_repairs : Type := DdRepairs {
  rd_status : bool; (* lines 75-78: after an error of the dump the program fails *)
  rd_usage : bool; (* lines 59-62: without an argument it fails instead of panicking *)
  rd_unwrap : bool; (* line 112: [?] instead of [unwrap()] *)
  rd_wrap : bool; (* line 248: [wrapping_add] instead of [+] *)
  rd_block : bool; (* lines 354, 435 and 447: an error in an expression is printed, like one in the
                      instructions at lines 299-302 *)
  rd_names : bool; (* lines 141-147: each architecture's own register names *)
  rd_bit : bool (* lines 199-217: also [DwEhPe::is_indirect] *) }.
Definition dd_as_is : dd_repairs := DdRepairs false false false false false false false.
Definition dd_all_repairs : dd_repairs := DdRepairs true true true true true true true.

(** Lines 138-150. *)
Definition dd_table_with (r : dd_repairs) (m : elf_arch) : option reg_table :=
  if rd_names r then
    match m with
    | ElfX86_64 | ElfX86_64_X32 => Some TX86_64
    | ElfI386 => Some TX86
    | ElfAarch64 => Some TAArch64
    | ElfArm => Some TArm
    | ElfRiscv32 | ElfRiscv64 => Some TRiscV
    | ElfLoongArch64 => Some TLoongArch
    | ElfOther _ _ => None
    end
  else dd_table m.
Definition dd_register_with (r : dd_repairs) (p : printers_dd) (m : elf_arch) (reg : Z) : string :=
  register_text (pd p) (dd_table_with r m) reg.

(** Lines 199-217.  [DW_EH_PE_indirect] is 0x80. *)
Definition pe_text_with (r : dd_repairs) (p : printers_dd) (e : Z) : string :=
  pe_text p e ++ (if rd_bit r && negb (Z.land e 0x80 =? 0)%Z then "/" ++ pr_pe p 0x80 else "").

(** What is printed in place of the rest of an expression. *)
Definition block_note (pr : printers) (g : gimli_error) : string := "Failed to decode expression: " ++ pr_gimli pr g.

(** [dump_expression] and its callers, lines 349-354, 424-443 and 478-545. *)
Definition block_with (r : dd_repairs) (pr : printers) (reg : Z -> string) (x : expression) : loud gimli_error unit :=
  let d := dump_expression pr reg true "                  " x in
  if rd_block r then
    match snd d with
    | Err g => ((fst d ++ [Out (block_note pr g)])%list, Ok tt)
    | _ => d
    end
  else d.
Fixpoint dd_list_with (r : dd_repairs) (pr : printers) (reg : Z -> string) (l : list insn) (en : option gimli_error)
    (finish : list event) : loud gimli_error unit :=
  match l with
  | [] =>
      match en with
      | Some g => say [Out ("Failed to decode CFI instruction: " ++ pr_gimli pr g)]
      | None => say finish
      end
  | i :: t =>
      let! _ := say [Out (insn_text pr reg i)] in
      let! _ :=
        match insn_expression i with
        | Some x => block_with r pr reg x
        | None => say []
        end in
      dd_list_with r pr reg t en finish
  end.
(** [dump_cfi_instructions], lines 276-477. *)
Definition dd_insns_with (r : dd_repairs) (p : printers_dd) (m : elf_arch) (initial : bool) (is : insns) : loud gimli_error unit :=
  let! _ := if initial then say [] else say [Out "  Instructions:"] in
  dd_list_with r (pd p) (dd_register_with r p m) (is_list is) (is_end is)
    (if initial then [Out "  Instructions: Init State:"] else []).

(** Lines 180-223. *)
Definition cie_print_with (r : dd_repairs) (p : printers_dd) (m : elf_arch) (c : cie) : loud gimli_error unit :=
  let! _ := say (
    [ Out "";
      Out (fmt_hex_alt_pad 64 10 (ci_offset c) ++ ": CIE");
      Out ("        length: " ++ fmt_hex_alt_pad 64 10 (ci_length c));
      Out ("       version: " ++ fmt_hex_alt_pad 8 4 (ci_version c));
      Out ("    code_align: " ++ fmt_dec (ci_code_align c));
      Out ("    data_align: " ++ fmt_dec (ci_data_align c));
      Out ("   ra_register: " ++ dd_register_with r p m (ci_ra c)) ] ++
    match ci_lsda c with Some e => [ Out (" lsda_encoding: " ++ pe_text_with r p e) ] | None => [] end ++
    match ci_personality c with
    | Some (e, q) => [ Out ("   personality: " ++ pe_text_with r p e ++ " " ++ pointer_text q) ]
    | None => []
    end ++
    match ci_fde c with Some e => [ Out ("  fde_encoding: " ++ pe_text_with r p e) ] | None => [] end)%list in
  let! _ := dd_insns_with r p m true (ci_insns c) in
  say [Out ""].

(** Lines 224-258. *)
Definition fde_print_with (r : dd_repairs) (p : printers_dd) (md : mode) (m : elf_arch) (offset length cie_offset : Z)
    (parsed : dd_fde + gimli_error) : loud gimli_error unit :=
  let! _ := say
    [ Out "";
      Out (fmt_hex_alt_pad 64 10 offset ++ ": FDE");
      Out ("        length: " ++ fmt_hex_alt_pad 64 10 length);
      Out ("   CIE_pointer: " ++ fmt_hex_alt_pad 64 10 cie_offset) ] in
  match parsed with
  | inr g => say [ Out ("Failed to parse FDE: " ++ pr_gimli (pd p) g) ]
  | inl f =>
      let! _ := say [ Out ("    start_addr: " ++ fmt_hex_alt_pad 64 18 (dd_start f)) ] in
      let! e := quiet (if rd_wrap r then Ok (as_u 64 (dd_start f + dd_len f)) else add_u64 md (dd_start f) (dd_len f)) in
      let! _ := say
        (Out ("    range_size: " ++ fmt_hex_alt_pad 64 18 (dd_len f) ++
              " (end_addr = " ++ fmt_hex_alt_pad 64 18 e ++ ")") ::
         match dd_lsda f with Some q => [ Out ("          lsda: " ++ pointer_text q) ] | None => [] end) in
      let! _ := dd_insns_with r p m false (dd_insns f) in
      say [Out ""]
  end.

(** Lines 174-260. *)
Fixpoint dd_entries_with (r : dd_repairs) (p : printers_dd) (md : mode) (m : elf_arch) (l : list dd_entry) (en : option gimli_error)
  : loud gimli_error unit :=
  match l with
  | [] => match en with Some g => quiet (Err g) | None => say [] end
  | DdCie c :: t =>
      let! _ := cie_print_with r p m c in
      dd_entries_with r p md m t en
  | DdPartial o n ci f :: t =>
      let! _ := fde_print_with r p md m o n ci f in
      dd_entries_with r p md m t en
  end.

(** [Error], lines 17-22, but for [IoError]: see [IoRepaired.v]. *)
Inductive dump_failure : Type := DumpGimli (g : gimli_error) | DumpObject.

(** [dump_file], lines 102-116. *)
Definition dump_file_with (r : dd_repairs) (p : printers_dd) (md : mode) (file : dd_file) : loud dump_failure unit :=
  let elf := dd_elf file in
  match section_by_name ".eh_frame" (elf_sections elf) with
  | None => say [Out dd_title]
  | Some _ =>
      match dd_parse file with
      | None => quiet (if rd_unwrap r then Err DumpObject else Panic)
      | Some parse =>
          let ents := parse (dwarfdump_setup md (elf_architecture elf) (elf_sections elf)) in
          let! _ := say [Out dd_title] in
          loud_err DumpGimli (dd_entries_with r p md (elf_architecture elf) (dde_list ents) (dde_end ents))
      end
  end.

(** [{:?}] of [Error]; [object] is [Debug] for [object::read::Error]. *)
Definition failure_text (p : printers_dd) (object : string) (f : dump_failure) : string :=
  match f with
  | DumpGimli g => "GimliError(" ++ pr_gimli_debug p g ++ ")"
  | DumpObject => "ObjectError(" ++ object ++ ")"
  end.

Inductive dd_main_error : Type := DdUsage | DdUnreadable | DdDump (f : dump_failure).

(** [main], lines 58-81. *)
Definition dwarfdump_main_with (r : dd_repairs) (p : printers_dd) (object : string) (md : mode) (path : option (string * option dd_file))
  : loud dd_main_error unit :=
  match path with
  | None => quiet (if rd_usage r then Err DdUsage else Panic)
  | Some (_, None) => quiet (Err DdUnreadable)
  | Some (path, Some file) =>
      let d := dump_file_with r p md file in
      match snd d with
      | Ok _ => (fst d, Ok tt)
      | Err f =>
          ((fst d ++ [ErrOut ("Failed to dump '" ++ path ++ "': " ++ failure_text p object f)])%list,
           if rd_status r then Err (DdDump f) else Ok tt)
      | Panic => (fst d, Panic)
      end
  end.
