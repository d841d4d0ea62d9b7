(** The command line tools: [crates/dwarf2sframe/src/main.rs] (called "v1"
    below), [crates/dwarf2sframe2/src/main.rs] and
    [crates/sframedump/src/main.rs].

    File access, ELF parsing and ELF writing (the [object] crate) are not
    modelled: an input file is what [object::File] reports about it, an output
    file is what is handed to [object::write]. *)
From Coq Require Import String.
From Verif Require Import Base BTree Raw Read Write Convert.

(** ** Input files *)

(** [object::Architecture]: those that some tool names, and any other, with its
    [address_size()] in bytes. *)
Inductive elf_arch : Type :=
| ElfX86_64 | ElfAarch64 | ElfX86_64_X32 | ElfI386 | ElfArm | ElfRiscv32 | ElfRiscv64 | ElfLoongArch64
| ElfOther (code : Z) (address_size : option Z).

(** [gimli::BaseAddresses], as far as it is set by the tools: one field per
    setter. *)
Record base_addresses : Type := Bases {
  ba_eh_frame_hdr : option Z;
  ba_eh_frame : option Z;
  ba_text : option Z;
  ba_got : option Z }.

Definition bases_default : base_addresses := Bases None None None None.
Definition set_eh_frame_hdr (a : Z) (b : base_addresses) : base_addresses :=
  Bases (Some a) (ba_eh_frame b) (ba_text b) (ba_got b).
Definition set_eh_frame (a : Z) (b : base_addresses) : base_addresses :=
  Bases (ba_eh_frame_hdr b) (Some a) (ba_text b) (ba_got b).
Definition set_text (a : Z) (b : base_addresses) : base_addresses :=
  Bases (ba_eh_frame_hdr b) (ba_eh_frame b) (Some a) (ba_got b).
Definition set_got (a : Z) (b : base_addresses) : base_addresses :=
  Bases (ba_eh_frame_hdr b) (ba_eh_frame b) (ba_text b) (Some a).

(** How gimli's parser is set up: the base addresses, the size of an address
    that is encoded as absolute, and the vendor, which decides about vendor
    specific instructions. *)
Inductive vendor : Type := VendorDefault | VendorAArch64.
Record parser_setup : Type := Setup {
  ps_bases : base_addresses;
  ps_address_size : Z;
  ps_vendor : vendor }.

(** A parsed ELF file: byte order, architecture, sections (name and address,
    in file order), and the two sections whose contents are read.
    [elf_eh_frame] is [None] when decompression fails; otherwise it is what
    gimli's parser makes of the contents for a given setup. *)
Record elf_file : Type := ElfFile {
  elf_endian : rt_endian;
  elf_architecture : elf_arch;
  elf_sections : list (string * Z);
  elf_eh_frame : option (parser_setup -> dw_entries);
  elf_sframe : option bytes }.

(** [file.section_by_name(name)]: the first section of that name. *)
Fixpoint section_by_name (name : string) (l : list (string * Z)) : option Z :=
  match l with
  | [] => None
  | (n, a) :: t => if String.eqb n name then Some a else section_by_name name t
  end.

(** [if let Some(section) = file.section_by_name(name) { bases = f(section.address()) }] *)
Definition with_section (l : list (string * Z)) (name : string)
    (f : Z -> base_addresses -> base_addresses) (b : base_addresses) : base_addresses :=
  match section_by_name name l with
  | Some a => f a b
  | None => b
  end.

(** dwarf2sframe2/src/main.rs:59-74; dwarf2sframe/src/main.rs:60-79 is the same
    code with printing.  Note the last line: [.got] goes to [set_text]. *)
Definition tool_bases (l : list (string * Z)) : base_addresses :=
  with_section l ".got" set_text
    (with_section l ".text" set_text
      (with_section l ".eh_frame" set_eh_frame
        (with_section l ".eh_frame_hdr" set_eh_frame_hdr bases_default))).

(** dwarf2sframe/src/bin/dwarfdump.rs:152-164 *)
Definition dwarfdump_bases (l : list (string * Z)) : base_addresses :=
  with_section l ".got" set_got
    (with_section l ".text" set_text
      (with_section l ".eh_frame" set_eh_frame
        (with_section l ".eh_frame_hdr" set_eh_frame_hdr bases_default))).

(** [EhFrame::new] leaves gimli's defaults: the pointer size of the machine
    that runs the tool, and no vendor.  Neither tool changes them
    (dwarf2sframe2/src/main.rs:57, dwarf2sframe/src/main.rs:52). *)
Definition tool_setup (md : mode) (l : list (string * Z)) : parser_setup :=
  {| ps_bases := tool_bases l; ps_address_size := usize_bits md / 8; ps_vendor := VendorDefault |}.

(** [object::Architecture::address_size]. *)
Definition elf_address_size (a : elf_arch) : option Z :=
  match a with
  | ElfX86_64 | ElfAarch64 | ElfRiscv64 | ElfLoongArch64 => Some 8
  | ElfX86_64_X32 | ElfI386 | ElfArm | ElfRiscv32 => Some 4
  | ElfOther _ size => size
  end.
(** dwarf2sframe/src/bin/dwarfdump.rs:123-136 *)
Definition dwarfdump_setup (md : mode) (a : elf_arch) (l : list (string * Z)) : parser_setup :=
  {| ps_bases := dwarfdump_bases l;
     ps_address_size := match elf_address_size a with Some n => n | None => usize_bits md / 8 end;
     ps_vendor := match a with ElfAarch64 => VendorAArch64 | _ => VendorDefault end |}.

(** ** Output files *)

(** What the tools pass to [object::write]: the container's architecture and
    byte order and the contents of [.sframe]
    (dwarf2sframe2/src/main.rs:90-103, dwarf2sframe/src/main.rs:326-339). *)
Record out_file : Type := OutFile {
  out_arch : elf_arch;
  out_endian : rt_endian;
  out_sframe : bytes }.

(** ** dwarf2sframe2/src/main.rs *)

(** The flags of [Args], lines 10-28. *)
Record cli_args : Type := CliArgs {
  ca_debug_dump : bool;
  ca_warnings : bool;
  ca_no_opt : bool }.

Inductive tool_error : Type :=
| ToolParse (* open, mmap or parse failed *)
| ToolUnsupportedArch
| ToolNoEhFrame
| ToolDecompress
| ToolConvert (er : conv_error)
| ToolBuild (er : emit_error).

Definition map_err {E F A} (f : E -> F) (o : outcome E A) : outcome F A :=
  match o with Ok a => Ok a | Err er => Err (f er) | Panic => Panic end.

Definition rt_is_big (en : rt_endian) : bool :=
  match en with RtBig => true | RtLittle => false end.

(** Lines 76-81. *)
Definition cli_options (args : cli_args) (a : arch) (en : rt_endian) : options :=
  conv_warnings (ca_warnings args)
    (conv_endian (Some en)
      (conv_merge_fres (negb (ca_no_opt args))
        (conv_merge_fdes (negb (ca_no_opt args))
          (conv_debugdump (ca_debug_dump args) (conv_options_new a))))).

(** [main], lines 30-114; [None] is a file that does not open or parse. *)
Definition dwarf2sframe2_main (md : mode) (args : cli_args) (input : option elf_file)
  : outcome tool_error out_file :=
  match input with
  | None => Err ToolParse
  | Some file =>
      let en := elf_endian file in
      let* a :=
        match elf_architecture file with
        | ElfX86_64 => Ok Amd64
        | ElfAarch64 => Ok Aarch64
        | _ => Err ToolUnsupportedArch
        end in
      match section_by_name ".eh_frame" (elf_sections file) with
      | None => Err ToolNoEhFrame
      | Some _ =>
          match elf_eh_frame file with
          | None => Err ToolDecompress
          | Some parse =>
              let eh := {| eh_big_endian := rt_is_big en;
                           eh_entries := parse (tool_setup md (elf_sections file)) |} in
              let* s := map_err ToolConvert (dwarf2sframe md (cli_options args a en) eh) in
              let* bs := map_err ToolBuild
                (match en with
                 | RtBig => build md BE s
                 | RtLittle => build md LE s
                 end) in
              Ok {| out_arch := elf_architecture file; out_endian := en; out_sframe := bs |}
          end
      end
  end.

(** ** dwarf2sframe/src/main.rs (v1) *)

Inductive v1_error : Type :=
| V1Parse
| V1NoEhFrame
| V1Decompress
| V1Entry (g : gimli_error)
| V1Fde (g : gimli_error)
| V1StartTooLarge (a : Z)
| V1LenTooLarge (l : Z)
| V1Rows (g : gimli_error)
| V1Dump (g : gimli_error)
| V1NextRow (g : gimli_error)
| V1RowOffset
| V1InvalidRow (er : row_error)
| V1Build (er : emit_error)
| V1OutOfFuel (* model only *).

(** The closure of lines 200-284 up to building the row: [None] is one of its
    [bail!]s.  Registers are those of x86-64 whatever the file's architecture. *)
Definition v1_translate (start : Z) (r : dw_row) : option row :=
  match dr_cfa r with
  | CfaExpression _ => None
  | CfaReg reg offset =>
      let base := if reg =? 6 then Some Fp else if reg =? 7 then Some Sp else None in
      match base with
      | None => None
      | Some base =>
          if negb (in_i32b offset) then None
          else
            let fp_result :=
              match dr_register r 6 with
              | ROffset o => if in_i32b o then Some (Some o) else None
              | RUndefined => Some None
              | _ => Some None (* reported on stderr, then treated as undefined *)
              end in
            match fp_result with
            | None => None
            | Some fp_offset =>
                match dr_register r 16 with
                | ROffset o =>
                    if in_i32b o
                    then Some (row_new base start
                           {| ro_cfa := offset; ro_ra := Some o; ro_fp := fp_offset |})
                    else None
                | _ => None
                end
            end
      end
  end.

(** Lines 200-307: add the translated row; on any failure add an invalid row
    instead; if that fails too the tool stops. *)
Definition v1_add_row (b : fdb) (start : Z) (r : dw_row) : outcome v1_error fdb :=
  match v1_translate start r with
  | None => map_err V1InvalidRow (fdb_row b (row_invalid start))
  | Some nr =>
      match fdb_row b nr with
      | Ok b' => Ok b'
      | Err _ => map_err V1InvalidRow (fdb_row b (row_invalid start))
      | Panic => Panic
      end
  end.

(** The row loop, lines 148-308.  [print_ok r] says whether the row's
    expressions can be printed (lines 162-198); if not, [unwrap] or [println!]
    panics. *)
Fixpoint v1_rows (md : mode) (print_ok : dw_row -> bool) (f : dw_fde) (l : list dw_row) (b : fdb)
  : outcome v1_error fdb :=
  match l with
  | [] => Ok b
  | r :: t =>
      let* d := sub_u64 md (dr_start r) (df_start f) in
      if negb (row_start_ok d) then Err V1RowOffset
      else if negb (print_ok r) then Panic
      else
        let* b' := v1_add_row b d r in
        v1_rows md print_ok f t b'
  end.

(** One FDE, lines 98-313. *)
Definition v1_fde (md : mode) (print_ok : dw_row -> bool) (s : sfb) (f : dw_fde)
  : outcome v1_error sfb :=
  if i32_max <? df_start f then Err (V1StartTooLarge (df_start f))
  else if i32_max <? df_len f then Err (V1LenTooLarge (df_len f))
  else
    let b := fdb_new (sb_options s) (as_s 32 (df_start f)) (as_u 32 (df_len f)) in
    match df_rows f with
    | inr g => Err (V1Rows g)
    | inl rows =>
        match df_dump f with
        | Some g => Err (V1Dump g)
        | None =>
            let* b := v1_rows md print_ok f (rows_list rows) b in
            match rows_end rows with
            | Some g => Err (V1NextRow g)
            | None =>
                let* b := map_err (fun _ => V1OutOfFuel) (merge_adjacent_fres b) in
                lift (sfb_fde s b)
            end
        end
    end.

Fixpoint v1_entries (md : mode) (print_ok : dw_row -> bool) (l : list dw_entry) (s : sfb)
  : outcome v1_error sfb :=
  match l with
  | [] => Ok s
  | DwCie :: t => v1_entries md print_ok t s
  | DwBadFde g :: _ => Err (V1Fde g)
  | DwGoodFde f :: t =>
      let* s' := v1_fde md print_ok s f in
      v1_entries md print_ok t s'
  end.

(** Lines 54-58. *)
Definition v1_options : sframe_options := options_abi ABI_AMD64_LE options_new.

(** Lines 81-316: the conversion, without reading and writing files. *)
Definition v1_convert (md : mode) (print_ok : dw_row -> bool) (ents : dw_entries)
  : outcome v1_error sfb :=
  let* s := v1_entries md print_ok (ents_list ents) (sfb_new v1_options) in
  match ents_end ents with
  | Some g => Err (V1Entry g)
  | None => map_err (fun _ => V1OutOfFuel) (merge_adjacent_fdes md s)
  end.

(** [main], lines 30-350.  [native] is the byte order of the machine running
    the tool. *)
Definition v1_main (md : mode) (native : endian) (print_ok : dw_row -> bool)
    (input : option elf_file) : outcome v1_error out_file :=
  match input with
  | None => Err V1Parse
  | Some file =>
      match section_by_name ".eh_frame" (elf_sections file) with
      | None => Err V1NoEhFrame
      | Some _ =>
          match elf_eh_frame file with
          | None => Err V1Decompress
          | Some parse =>
              let* s := v1_convert md print_ok (parse (tool_setup md (elf_sections file))) in
              let* bs := map_err V1Build (build md native s) in
              Ok {| out_arch := elf_architecture file; out_endian := elf_endian file;
                    out_sframe := bs |}
          end
      end
  end.

(** ** sframedump/src/main.rs *)

(** A table cell, lines 120-138: [u], base register and offset, or [cfa] and
    offset. *)
Inductive cell : Type :=
| CellUnknown
| CellBase (b : base_reg) (o : Z)
| CellCfa (o : Z).

(** A line of output.  [LineErr] goes to stderr (line 115); the others are
    written to stdout, with the values that are formatted into them. *)
Inductive dump_line : Type :=
| LineHeader (version flags nfdes nfres abi : Z) (fp ra : option Z)
| LineFunc (idx : Z) (start size : Z)
| LineColumns (ty : pub_fde_type)
| LineRow (start : Z) (cfa fp ra : cell) (mangled : bool)
| LineErr (er : read_error)
| LineBlank
| LineIndex (* "Function Index:" *).

Definition cell_of {E} (mk : Z -> cell) (o : outcome E Z) : cell :=
  match o with Ok z => mk z | _ => CellUnknown end.

(** Lines 120-149.  The cells are computed before [fre.start_address()], which
    may panic. *)
Definition dump_row {E} (md : mode) (sf : sframe) (fr : fre) : outcome E dump_line :=
  let* start := fre_start_address md fr in
  Ok (LineRow start
        (cell_of (CellBase (fre_cfa_base_reg_id fr)) (fre_cfa_offset fr))
        (cell_of CellCfa (fre_fp_offset fr sf))
        (cell_of CellCfa (fre_ra_offset fr sf))
        (fre_mangled_ra_p fr)).

(** The row loop, lines 110-150. *)
Fixpoint dump_rows (fuel : nat) (md : mode) (e : endian) (sf : sframe) (it : fre_iter)
  : outcome fuel_error (list dump_line) :=
  match fuel with
  | O => Err OutOfFuel
  | S k =>
      match fri_next md e it with
      | Ok (None, _) => Ok []
      | Ok (Some (inr er), _) => Ok [LineErr er]
      | Ok (Some (inl fr), it') =>
          let* line := dump_row md sf fr in
          let* rest := dump_rows k md e sf it' in
          Ok (line :: rest)
      | Err er => match er with end
      | Panic => Panic
      end
  end.

(** The body of the FDE loop, lines 94-153. *)
Definition dump_fde (md : mode) (e : endian) (sf : sframe) (idx : Z) (en : entry)
  : outcome fuel_error (list dump_line) :=
  let* rows := dump_rows (fri_fuel (fres en)) md e sf (fres en) in
  Ok (LineFunc idx (en_start_address en) (en_size en) ::
      LineColumns (en_fdetype en) :: rows ++ [LineBlank]).

(** [for (idx, fde) in sframe.fdes().enumerate()]. *)
Fixpoint dump_fdes (fuel : nat) (md : mode) (e : endian) (sf : sframe) (idx : Z) (it : fde_iter)
  : outcome fuel_error (list dump_line) :=
  match fuel with
  | O => Err OutOfFuel
  | S k =>
      match fdi_next it with
      | (None, _) => Ok []
      | (Some en, it') =>
          let* l := dump_fde md e sf idx en in
          let* rest := dump_fdes k md e sf (idx + 1) it' in
          Ok (l ++ rest)
      end
  end.

(** [dump], lines 68-156. *)
Definition dump (md : mode) (e : endian) (sf : sframe) : outcome fuel_error (list dump_line) :=
  let* rest := dump_fdes (S (List.length (it_fdes (fdes sf)))) md e sf 0 (fdes sf) in
  Ok (LineHeader (version sf) (flags sf) (num_fdes sf) (num_fres sf) (abi sf)
        (fixed_fp_offset sf) (fixed_ra_offset sf) :: LineBlank :: LineIndex :: rest).

Inductive dump_error : Type :=
| DumpParse
| DumpNoSframe
| DumpDecompress
| DumpLoad (er : read_error)
| DumpOutOfFuel.

(** [main], lines 45-65, for one free argument. *)
Definition sframedump_main (md : mode) (native : endian) (input : option elf_file)
  : outcome dump_error (list dump_line) :=
  match input with
  | None => Err DumpParse
  | Some file =>
      match section_by_name ".sframe" (elf_sections file) with
      | None => Err DumpNoSframe
      | Some _ =>
          match elf_sframe file with
          | None => Err DumpDecompress
          | Some data =>
              let* sf := map_err DumpLoad (load md native data) in
              map_err (fun _ => DumpOutOfFuel) (dump md native sf)
          end
      end
  end.
