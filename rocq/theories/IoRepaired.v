(** Output with repairs.

    Everything here is [Io.v] with changes to the source that can be switched on; with
    none of them it is the programs as they are ([IoRepairedFacts.v]). *)
From Coq Require Import String Ascii.
From Verif Require Import Base BTree Raw Read Write Convert Tools Text Loud V1Loud Dwarfdump Io.
Local Open Scope string_scope.

(** ** sframedump *)

(** [main], sframedump/src/main.rs:58-65, with [out.flush()?] at the end if [flush]. *)
Definition sframedump_io_with (flush : bool) (abi_name : Z -> string) (pieces : string -> list string) (sk : sink)
    (md : mode) (native : endian) (sf : sframe) : list seen * exit :=
  let run := dump_run md native sf in
  let r := write_dump abi_name pieces sk (fst run) bw_new in
  if snd r then
    match snd run with
    | Ok _ =>
        if flush then
          let f := bw_flush sk (fst r) in
          (bw_log (bw_drop sk (fst f)), if snd f then Succeeded else Failed)
        else (bw_log (bw_drop sk (fst r)), Succeeded)
    | Err _ => (bw_log (bw_drop sk (fst r)), Failed)
    | Panic => (bw_log (bw_drop sk (fst r)), Panicked)
    end
  else (bw_log (bw_drop sk (fst r)), Failed).

(** ** dwarfdump *)

(** dwarf2sframe/src/bin/dwarfdump.rs:70-81: if [status], the program fails after an
    error of the dump. *)
Definition dwarfdump_io_with (status : bool) (p : printers_dd) (pieces : string -> list string) (sk : sink) (md : mode)
    (path : string) (file : dd_file) : list seen * exit :=
  let r := dwarfdump_io p pieces sk md path file in
  (fst r,
   match snd r with
   | Succeeded => if status && existsb (fun e => match e with ErrLine _ => true | _ => false end) (fst r) then Failed else Succeeded
   | x => x
   end).

(** ** The converters *)

(** An error of standard output, or another. *)
Inductive io_error (E : Type) : Type := IoFailed | NotIo (er : E).
Arguments IoFailed {E}.
Arguments NotIo {E} er.

Record io_repairs : Type := IoRepairs {
  ri_println : bool; (* [writeln!] and an error of its own instead of [println!] *)
  ri_writeln : bool (* the errors of [dump_cfi_instructions] keep apart those of gimli and those of the
                       output: dwarf2sframe2/src/lib.rs:214-220, dwarf2sframe/src/main.rs:138-144 *) }.
Definition io_as_is : io_repairs := IoRepairs false false.
Definition io_all_repairs : io_repairs := IoRepairs true true.

Definition println_with {E A} (r : io_repairs) (m : loud E A) : wired (io_error E) A :=
  wire (if ri_println r then Err IoFailed else Panic) (loud_err NotIo m).
Definition writeln_with {E A} (r : io_repairs) (er : E) (m : loud E A) : wired (io_error E) A :=
  wire (Err (if ri_writeln r then IoFailed else NotIo er)) (loud_err NotIo m).
Definition ret_with {E A} (o : outcome E A) : wired (io_error E) A := wired_ret (map_err NotIo o).
Definition in_io {E F} (f : E -> F) (er : io_error E) : io_error F :=
  match er with IoFailed => IoFailed | NotIo er => NotIo (f er) end.

(** dwarf2sframe2/src/lib.rs:203-315. *)
Definition convert_fde_wired_with (r : io_repairs) (gio : gimli_error) (pr : printers) (md : mode) (op : options) (s : sfb) (f : dw_fde)
  : wired (io_error conv_error) sfb :=
  let~ _ :=
    if op_debugdump op then
      let~ _ := println_with r (
        let! _ := say [ Out "FDE:"; Out (" start_address: " ++ fmt_hex_alt_pad 64 10 (df_start f)) ] in
        let! e := quiet (add_u64 md (df_start f) (df_len f)) in
        say [ Out ("    range_size: " ++ fmt_hex_alt_pad 64 10 (df_len f) ++
                " (end_addr = " ++ fmt_hex_alt_pad 64 10 e ++ ")") ]) in
      let~ _ := writeln_with r (InvalidDwarfFde gio)
        (loud_err InvalidDwarfFde (dump_cfi_instructions pr (op_arch op) (df_insns f))) in
      println_with r (say [ Out ""; Out "Rows:" ])
    else ret_with (Ok tt) in
  if (i32_max <? df_start f)%Z then ret_with (Err (InvalidStartAddress (df_start f)))
  else if (i32_max <? df_len f)%Z then ret_with (Err (InvalidFunctionLength (df_start f) (df_len f)))
  else
    let b := fdb_new (sb_options s) (as_s 32 (df_start f)) (as_u 32 (df_len f)) in
    match df_rows f with
    | inr g => ret_with (Err (InvalidUnwindTable g))
    | inl rows =>
        let~ b := println_with r (convert_rows_loud pr md op f (rows_list rows) b) in
        match rows_end rows with
        | Some g => ret_with (Err (InvalidUnwindTable g))
        | None =>
            let~ b := ret_with (if op_merge_fres op then of_fuel (merge_adjacent_fres b) else Ok b) in
            let~ s' := ret_with (lift (sfb_fde s b)) in
            let~ _ := println_with r (if op_debugdump op then say [ Out "" ] else say []) in
            ret_with (Ok s')
        end
    end.
Fixpoint convert_entries_wired_with (r : io_repairs) (gio : gimli_error) (pr : printers) (md : mode) (op : options) (l : list dw_entry) (s : sfb)
  : wired (io_error conv_error) sfb :=
  match l with
  | [] => ret_with (Ok s)
  | DwCie :: t => convert_entries_wired_with r gio pr md op t s
  | DwBadFde g :: _ => ret_with (Err (InvalidDwarfFde g))
  | DwGoodFde f :: t =>
      let~ s' := convert_fde_wired_with r gio pr md op s f in
      convert_entries_wired_with r gio pr md op t s'
  end.
Definition dwarf2sframe_wired_with (r : io_repairs) (gio : gimli_error) (pr : printers) (md : mode) (op : options) (eh : eh_frame)
  : wired (io_error conv_error) sfb :=
  let~ s := convert_entries_wired_with r gio pr md op (ents_list (eh_entries eh)) (sfb_new (conv_sfoptions op eh)) in
  match ents_end (eh_entries eh) with
  | Some g => ret_with (Err (InvalidEhFrameEntry g))
  | None => ret_with (if op_merge_fdes op then of_fuel (merge_adjacent_fdes md s) else Ok s)
  end.

(** [main], dwarf2sframe2/src/main.rs:30-114. *)
Definition dwarf2sframe2_main_wired_with (r : io_repairs) (gio : gimli_error) (pr : printers) (md : mode) (args : cli_args) (input : option elf_file)
  : wired (io_error tool_error) out_file :=
  match input with
  | None => ret_with (Err ToolParse)
  | Some file =>
      let en := elf_endian file in
      let~ a :=
        ret_with match elf_architecture file with
        | ElfX86_64 => Ok Amd64
        | ElfAarch64 => Ok Aarch64
        | _ => Err ToolUnsupportedArch
        end in
      match section_by_name ".eh_frame" (elf_sections file) with
      | None => ret_with (Err ToolNoEhFrame)
      | Some _ =>
          match elf_eh_frame file with
          | None => ret_with (Err ToolDecompress)
          | Some parse =>
              let eh := {| eh_big_endian := rt_is_big en;
                           eh_entries := parse (tool_setup md (elf_sections file)) |} in
              let~ s := wired_err (in_io ToolConvert) (dwarf2sframe_wired_with r gio pr md (cli_options args a en) eh) in
              let~ bs := ret_with (map_err ToolBuild
                (match en with
                 | RtBig => build md BE s
                 | RtLittle => build md LE s
                 end)) in
              ret_with (Ok {| out_arch := elf_architecture file; out_endian := en; out_sframe := bs |})
          end
      end
  end.

(** The first version, dwarf2sframe/src/main.rs:98-350. *)
Definition v1_fde_wired_with (r : io_repairs) (gio : gimli_error) (p : printers1) (m : elf_arch) (md : mode) (s : sfb) (f : dw_fde)
  : wired (io_error v1_error) sfb :=
  if (i32_max <? df_start f)%Z then ret_with (Err (V1StartTooLarge (df_start f)))
  else if (i32_max <? df_len f)%Z then ret_with (Err (V1LenTooLarge (df_len f)))
  else
    let b := fdb_new (sb_options s) (as_s 32 (df_start f)) (as_u 32 (df_len f)) in
    match df_rows f with
    | inr g => ret_with (Err (V1Rows g))
    | inl rows =>
        let~ _ := println_with r (
          let! _ := say [ Out "FDE:"; Out (" start_address: " ++ fmt_hex_alt_pad 64 10 (df_start f)) ] in
          let! e := quiet (add_u64 md (df_start f) (df_len f)) in
          say [ Out ("    range_size: " ++ fmt_hex_alt_pad 64 10 (df_len f) ++
                  " (end_addr = " ++ fmt_hex_alt_pad 64 10 e ++ ")") ]) in
        let~ _ := writeln_with r (V1Dump gio) (loud_err V1Dump (v1_dump_insns p (df_insns f))) in
        let~ _ := println_with r (say [ Out ""; Out "Rows:" ]) in
        let~ b := println_with r (v1_rows_loud p m md f (rows_list rows) b) in
        match rows_end rows with
        | Some g => ret_with (Err (V1NextRow g))
        | None =>
            let~ b := ret_with (map_err (fun _ => V1OutOfFuel) (merge_adjacent_fres b)) in
            let~ s' := ret_with (lift (sfb_fde s b)) in
            let~ _ := println_with r (say [ Out "" ]) in
            ret_with (Ok s')
        end
    end.
Fixpoint v1_entries_wired_with (r : io_repairs) (gio : gimli_error) (p : printers1) (m : elf_arch) (md : mode) (l : list dw_entry) (s : sfb)
  : wired (io_error v1_error) sfb :=
  match l with
  | [] => ret_with (Ok s)
  | DwCie :: t => v1_entries_wired_with r gio p m md t s
  | DwBadFde g :: _ => ret_with (Err (V1Fde g))
  | DwGoodFde f :: t =>
      let~ s' := v1_fde_wired_with r gio p m md s f in
      v1_entries_wired_with r gio p m md t s'
  end.
Definition v1_convert_wired_with (r : io_repairs) (gio : gimli_error) (p : printers1) (m : elf_arch) (md : mode) (ents : dw_entries)
  : wired (io_error v1_error) sfb :=
  let~ s := v1_entries_wired_with r gio p m md (ents_list ents) (sfb_new v1_options) in
  match ents_end ents with
  | Some g => ret_with (Err (V1Entry g))
  | None => ret_with (map_err (fun _ => V1OutOfFuel) (merge_adjacent_fdes md s))
  end.
Definition v1_main_wired_with (r : io_repairs) (gio : gimli_error) (p : printers1) (md : mode) (native : endian) (input : option elf_file)
  : wired (io_error v1_error) out_file :=
  match input with
  | None => ret_with (Err V1Parse)
  | Some file =>
      match section_by_name ".eh_frame" (elf_sections file) with
      | None => ret_with (Err V1NoEhFrame)
      | Some _ =>
          match elf_eh_frame file with
          | None => ret_with (Err V1Decompress)
          | Some parse =>
              let~ _ := println_with r (say (sections_print (elf_sections file))) in
              let~ s := v1_convert_wired_with r gio p (elf_architecture file) md (parse (tool_setup md (elf_sections file))) in
              let~ bs := ret_with (map_err V1Build (build md native s)) in
              ret_with (Ok {| out_arch := elf_architecture file; out_endian := elf_endian file; out_sframe := bs |})
          end
      end
  end.

(** ** The output file *)

(** If [atomic], the object is written to another file, which replaces the output file
    when it is complete ([renamed] false: that fails).  Renaming a file is assumed to
    happen completely or not at all. *)
Definition finish_with {E} (atomic : bool) (emit : out_file -> option bytes) (fw : file_write) (renamed : bool)
    (before : option bytes) (r : outcome E out_file) : option bytes * exit :=
  match r with
  | Ok o =>
      match emit o with
      | None => (before, Failed)
      | Some data =>
          if atomic then
            let w := fs_write fw data None in
            if snd w && renamed then (fst w, Succeeded) else (before, Failed)
          else
            let w := fs_write fw data before in
            (fst w, if snd w then Succeeded else Failed)
      end
  | Err _ => (before, Failed)
  | Panic => (before, Panicked)
  end.
