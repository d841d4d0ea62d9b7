(** [crates/dwarf2sframe/src/bin/dwarfdump.rs].

    The output is written to a [BufWriter], which is flushed when it is dropped:
    also when the dump fails or panics. *)
From Coq Require Import String Ascii.
From Verif Require Import Base BTree Raw Read Write Convert Tools Text Loud.
Local Open Scope string_scope.

(** ** What gimli returns *)

(** [gimli::Pointer]. *)
Inductive pointer : Type := Direct (p : Z) | Indirect (p : Z).

(** [gimli::CommonInformationEntry]: the values that are printed.  Encodings
    ([DwEhPe]) are bytes. *)
Record cie : Type := Cie {
  ci_offset : Z;
  ci_length : Z;
  ci_version : Z;
  ci_code_align : Z;
  ci_data_align : Z;
  ci_ra : Z;
  ci_lsda : option Z;
  ci_personality : option (Z * pointer);
  ci_fde : option Z;
  ci_insns : insns }.

(** A parsed [gimli::FrameDescriptionEntry]. *)
Record dd_fde : Type := DdFde {
  dd_start : Z;
  dd_len : Z;
  dd_lsda : option pointer;
  dd_insns : insns }.

(** [gimli::CieOrFde]; for an FDE also what [parse] returns.  (The tool keeps the
    CIEs it has parsed in a map; [cie_from_offset] has no side effects.) *)
Inductive dd_entry : Type :=
| DdCie (c : cie)
| DdPartial (offset length cie_offset : Z) (parsed : dd_fde + gimli_error).
Record dd_entries : Type := DdEntries {
  dde_list : list dd_entry;
  dde_end : option gimli_error }.

(** The file, and what gimli makes of the contents of [.eh_frame] ([None] when
    decompression fails). *)
Record dd_file : Type := DdFile {
  dd_elf : elf_file;
  dd_parse : option (parser_setup -> dd_entries) }.

(** Text of other crates that only this tool prints. *)
Record printers_dd : Type := PrintersDd {
  pd : printers;
  pr_pe : Z -> string; (* Display for gimli::DwEhPe *)
  pr_gimli_debug : gimli_error -> string (* Debug for gimli::Error *) }.

(** ** The dump *)

(** Lines 138-150. *)
Definition dd_table (m : elf_arch) : option reg_table :=
  match m with
  | ElfArm | ElfAarch64 => Some TArm
  | ElfI386 => Some TX86
  | ElfX86_64 => Some TX86_64
  | _ => None
  end.
Definition dd_register (p : printers_dd) (m : elf_arch) (reg : Z) : string := register_text (pd p) (dd_table m) reg.

(** [DwEhPe::application] and [DwEhPe::format] (gimli): the bits 4 to 6 and the
    low four bits. *)
Definition pe_text (p : printers_dd) (e : Z) : string :=
  pr_pe p (Z.land e 0x70) ++ "/" ++ pr_pe p (Z.land e 0x0f).

(** [dump_pointer], lines 263-273. *)
Definition pointer_text (q : pointer) : string :=
  match q with
  | Direct a => fmt_hex_alt_pad 64 18 a
  | Indirect a => "(" ++ fmt_hex_alt_pad 64 18 a ++ ")"
  end.

(** [dump_cfi_instructions], lines 276-477. *)
Definition dd_dump_insns (p : printers_dd) (m : elf_arch) (initial : bool) (is : insns) : loud gimli_error unit :=
  let! _ := if initial then say [] else say [Out "  Instructions:"] in
  dump_insn_list (pd p) (dd_register p m) true (is_list is) (is_end is)
    (if initial then [Out "  Instructions: Init State:"] else []).

(** Lines 180-223. *)
Definition cie_print (p : printers_dd) (m : elf_arch) (c : cie) : loud gimli_error unit :=
  let! _ := say (
    [ Out "";
      Out (fmt_hex_alt_pad 64 10 (ci_offset c) ++ ": CIE");
      Out ("        length: " ++ fmt_hex_alt_pad 64 10 (ci_length c));
      Out ("       version: " ++ fmt_hex_alt_pad 8 4 (ci_version c));
      Out ("    code_align: " ++ fmt_dec (ci_code_align c));
      Out ("    data_align: " ++ fmt_dec (ci_data_align c));
      Out ("   ra_register: " ++ dd_register p m (ci_ra c)) ] ++
    match ci_lsda c with Some e => [ Out (" lsda_encoding: " ++ pe_text p e) ] | None => [] end ++
    match ci_personality c with
    | Some (e, q) => [ Out ("   personality: " ++ pe_text p e ++ " " ++ pointer_text q) ]
    | None => []
    end ++
    match ci_fde c with Some e => [ Out ("  fde_encoding: " ++ pe_text p e) ] | None => [] end)%list in
  let! _ := dd_dump_insns p m true (ci_insns c) in
  say [Out ""].

(** Lines 224-258. *)
Definition fde_print (p : printers_dd) (md : mode) (m : elf_arch) (offset length cie_offset : Z)
    (parsed : dd_fde + gimli_error) : loud gimli_error unit :=
  let! _ := say
    [ Out "";
      Out (fmt_hex_alt_pad 64 10 offset ++ ": FDE");
      Out ("        length: " ++ fmt_hex_alt_pad 64 10 length);
      Out ("   CIE_pointer: " ++ fmt_hex_alt_pad 64 10 cie_offset) ] in
  match parsed with
  | inr g => say [ Out ("Failed to parse FDE: " ++ pr_gimli (pd p) g) ]
  | inl f =>
      let! _ := say [ Out ("    start_addr: " ++ fmt_hex_alt_pad 64 18 (dd_start f)) ] in
      let! e := quiet (add_u64 md (dd_start f) (dd_len f)) in
      let! _ := say
        (Out ("    range_size: " ++ fmt_hex_alt_pad 64 18 (dd_len f) ++
              " (end_addr = " ++ fmt_hex_alt_pad 64 18 e ++ ")") ::
         match dd_lsda f with Some q => [ Out ("          lsda: " ++ pointer_text q) ] | None => [] end) in
      let! _ := dd_dump_insns p m false (dd_insns f) in
      say [Out ""]
  end.

(** Lines 174-260. *)
Fixpoint dd_entries_print (p : printers_dd) (md : mode) (m : elf_arch) (l : list dd_entry) (en : option gimli_error)
  : loud gimli_error unit :=
  match l with
  | [] => match en with Some g => quiet (Err g) | None => say [] end
  | DdCie c :: t =>
      let! _ := cie_print p m c in
      dd_entries_print p md m t en
  | DdPartial o n ci f :: t =>
      let! _ := fde_print p md m o n ci f in
      dd_entries_print p md m t en
  end.

Definition dd_title : string := "Exception handling frame information for section .eh_frame".

(** [dump_file], lines 102-116, with [load_file_section], lines 83-100, and
    [dump_eh_frame], lines 118-261.  Without [.eh_frame] gimli is given an empty
    section. *)
Definition dump_file (p : printers_dd) (md : mode) (file : dd_file) : loud gimli_error unit :=
  let elf := dd_elf file in
  match section_by_name ".eh_frame" (elf_sections elf) with
  | None => say [Out dd_title]
  | Some _ =>
      match dd_parse file with
      | None => quiet Panic
      | Some parse =>
          let ents := parse (dwarfdump_setup md (elf_architecture elf) (elf_sections elf)) in
          let! _ := say [Out dd_title] in
          dd_entries_print p md (elf_architecture elf) (dde_list ents) (dde_end ents)
      end
  end.

Inductive dd_error : Type := DdParse. (* open, mmap or parse failed *)

(** [main], lines 58-81: no argument, a file that is not ELF, or a file.  An
    error of the dump is printed; the program still succeeds. *)
Definition dwarfdump_main (p : printers_dd) (md : mode) (path : option (string * option dd_file)) : loud dd_error unit :=
  match path with
  | None => quiet Panic
  | Some (_, None) => quiet (Err DdParse)
  | Some (path, Some file) =>
      let r := dump_file p md file in
      match snd r with
      | Ok _ => (fst r, Ok tt)
      | Err g => ((fst r ++ [ErrOut ("Failed to dump '" ++ path ++ "': GimliError(" ++ pr_gimli_debug p g ++ ")")])%list, Ok tt)
      | Panic => (fst r, Panic)
      end
  end.
