(** Output that can fail: standard output behind a [BufWriter] (sframedump,
    dwarfdump), [println!] (the converters), and the output file.

    The standard library's [BufWriter] is transcribed; what is behind it (standard
    output, and whatever that is connected to) is an input.  Writing to stderr is
    assumed to succeed. *)
From Coq Require Import String Ascii.
From Verif Require Import Base BTree Raw Read Write Convert Tools Text Loud V1Loud Dwarfdump.
Local Open Scope string_scope.

Definition slen (s : string) : Z := Z.of_nat (String.length s).
(** [&s[n..]] and [&s[..n]] *)
Fixpoint sdrop (n : nat) (s : string) : string :=
  match n, s with
  | S k, String _ t => sdrop k t
  | _, _ => s
  end.
Fixpoint stake (n : nat) (s : string) : string :=
  match n, s with
  | S k, String c t => String c (stake k t)
  | _, _ => ""
  end.

(** ** Where output goes *)

(** What standard output does with the [n]-th call of [write] or [flush]: how many
    bytes it takes, or an error ([None]; interrupted calls, which are repeated, are
    not counted). *)
Record sink : Type := Sink {
  sk_write : nat -> string -> option nat;
  sk_flush : nat -> bool }.

(** What happens, in order: standard output takes text, standard output is flushed,
    a line is written to stderr. *)
Inductive seen : Type := Took (s : string) | Flushed | ErrLine (s : string).

(** ** [std::io::BufWriter] *)

Record bufwriter : Type := BufWriter {
  bw_buf : string;
  bw_calls : nat;
  bw_log : list seen }.
Definition bw_new : bufwriter := {| bw_buf := ""; bw_calls := 0; bw_log := [] |}.

(** [DEFAULT_BUF_SIZE] *)
Definition bw_capacity : Z := 8192.

(** One [write] call. *)
Definition sink_write (sk : sink) (s : string) (calls : nat) : option nat :=
  match sk_write sk calls s with
  | Some n => Some (Nat.min n (String.length s))
  | None => None
  end.

(** [flush_buf]: [write] until the buffer is empty; taking nothing is an error
    ([WriteZero]).  What was taken leaves the buffer even if there is an error.
    The second component says whether it succeeded.  The fuel is one more than the
    number of bytes. *)
Fixpoint flush_loop (fuel : nat) (sk : sink) (w : bufwriter) : bufwriter * bool :=
  match bw_buf w with
  | "" => (w, true)
  | s =>
      match fuel with
      | O => (w, false)
      | S k =>
          match sink_write sk s (bw_calls w) with
          | None | Some O => ({| bw_buf := s; bw_calls := S (bw_calls w); bw_log := bw_log w |}, false)
          | Some n =>
              flush_loop k sk {| bw_buf := sdrop n s; bw_calls := S (bw_calls w);
                                 bw_log := (bw_log w ++ [Took (stake n s)])%list |}
          end
      end
  end.
Definition flush_buf (sk : sink) (w : bufwriter) : bufwriter * bool :=
  flush_loop (S (String.length (bw_buf w))) sk w.

(** [write_all] of what is behind the buffer: the same loop, for [s]; what is left
    over after an error is lost. *)
Definition inner_write_all (sk : sink) (s : string) (w : bufwriter) : bufwriter * bool :=
  let r := flush_loop (S (String.length s)) sk {| bw_buf := s; bw_calls := bw_calls w; bw_log := bw_log w |} in
  ({| bw_buf := bw_buf w; bw_calls := bw_calls (fst r); bw_log := bw_log (fst r) |}, snd r).

(** [BufWriter::write_all] *)
Definition bw_append (s : string) (w : bufwriter) : bufwriter :=
  {| bw_buf := bw_buf w ++ s; bw_calls := bw_calls w; bw_log := bw_log w |}.
Definition bw_write_all (sk : sink) (s : string) (w : bufwriter) : bufwriter * bool :=
  let spare := (bw_capacity - slen (bw_buf w))%Z in
  if (slen s <? spare)%Z then (bw_append s w, true)
  else
    let r := if (spare <? slen s)%Z then flush_buf sk w else (w, true) in
    if snd r then
      if (bw_capacity <=? slen s)%Z then inner_write_all sk s (fst r) else (bw_append s (fst r), true)
    else r.

(** [BufWriter::flush] *)
Definition bw_flush (sk : sink) (w : bufwriter) : bufwriter * bool :=
  let r := flush_buf sk w in
  if snd r then
    let ok := sk_flush sk (bw_calls (fst r)) in
    ({| bw_buf := bw_buf (fst r); bw_calls := S (bw_calls (fst r));
        bw_log := (bw_log (fst r) ++ if ok then [Flushed] else [])%list |}, ok)
  else r.

(** [BufWriter::drop]: the error of [flush_buf] is ignored. *)
Definition bw_drop (sk : sink) (w : bufwriter) : bufwriter := fst (flush_buf sk w).

(** ** Writing lines *)

(** [writeln!] writes the line piece by piece; how it is cut up is decided by
    [format_args!] and is an input. *)
Fixpoint write_pieces (sk : sink) (l : list string) (w : bufwriter) : bufwriter * bool :=
  match l with
  | [] => (w, true)
  | p :: t =>
      let r := bw_write_all sk p w in
      if snd r then write_pieces sk t (fst r) else r
  end.
Fixpoint write_lines (pieces : string -> list string) (sk : sink) (l : list string) (w : bufwriter) : bufwriter * bool :=
  match l with
  | [] => (w, true)
  | s :: t =>
      let r := write_pieces sk (pieces (s ++ newline)) w in
      if snd r then write_lines pieces sk t (fst r) else r
  end.
(** [eprintln!] *)
Definition err_line (s : string) (w : bufwriter) : bufwriter :=
  {| bw_buf := bw_buf w; bw_calls := bw_calls w; bw_log := (bw_log w ++ [ErrLine s])%list |}.

(** ** sframedump *)

(** The same as [dump] of [Tools.v], but with what is printed before a panic:
    sframedump/src/main.rs:68-156. *)
Fixpoint dump_rows_run (fuel : nat) (md : mode) (e : endian) (sf : sframe) (it : fre_iter)
  : list dump_line * outcome fuel_error unit :=
  match fuel with
  | O => ([], Err OutOfFuel)
  | S k =>
      match fri_next md e it with
      | Ok (None, _) => ([], Ok tt)
      | Ok (Some (inr er), _) => ([LineErr er], Ok tt)
      | Ok (Some (inl fr), it') =>
          match @dump_row fuel_error md sf fr with
          | Ok line => let r := dump_rows_run k md e sf it' in (line :: fst r, snd r)
          | Err er => ([], Err er)
          | Panic => ([], Panic)
          end
      | Err er => match er with end
      | Panic => ([], Panic)
      end
  end.
Definition dump_fde_run (md : mode) (e : endian) (sf : sframe) (idx : Z) (en : entry)
  : list dump_line * outcome fuel_error unit :=
  let r := dump_rows_run (fri_fuel (fres en)) md e sf (fres en) in
  (LineFunc idx (en_start_address en) (en_size en) :: LineColumns (en_fdetype en) ::
     (fst r ++ match snd r with Ok _ => [LineBlank] | _ => [] end)%list,
   snd r).
Fixpoint dump_fdes_run (fuel : nat) (md : mode) (e : endian) (sf : sframe) (idx : Z) (it : fde_iter)
  : list dump_line * outcome fuel_error unit :=
  match fuel with
  | O => ([], Err OutOfFuel)
  | S k =>
      match fdi_next it with
      | (None, _) => ([], Ok tt)
      | (Some en, it') =>
          let r := dump_fde_run md e sf idx en in
          match snd r with
          | Ok _ => let r' := dump_fdes_run k md e sf (idx + 1) it' in ((fst r ++ fst r')%list, snd r')
          | Err er => (fst r, Err er)
          | Panic => (fst r, Panic)
          end
      end
  end.
Definition dump_run (md : mode) (e : endian) (sf : sframe) : list dump_line * outcome fuel_error unit :=
  let r := dump_fdes_run (S (List.length (it_fdes (fdes sf)))) md e sf 0 (fdes sf) in
  (LineHeader (version sf) (flags sf) (num_fdes sf) (num_fres sf) (abi sf)
     (fixed_fp_offset sf) (fixed_ra_offset sf) :: LineBlank :: LineIndex :: fst r, snd r).

(** The lines go through the buffer; before an error message it is flushed
    (lines 113-117). *)
Fixpoint write_dump (abi_name : Z -> string) (pieces : string -> list string) (sk : sink) (l : list dump_line) (w : bufwriter)
  : bufwriter * bool :=
  match l with
  | [] => (w, true)
  | LineErr er :: t =>
      let r := bw_flush sk w in
      if snd r
      then write_dump abi_name pieces sk t (err_line ("  error decoding FRE: " ++ read_error_text er) (fst r))
      else r
  | ln :: t =>
      let r := write_lines pieces sk (line_text abi_name ln) w in
      if snd r then write_dump abi_name pieces sk t (fst r) else r
  end.

(** How the process ends. *)
Inductive exit : Type := Succeeded | Failed | Panicked.

(** [main], lines 58-65, for a section that loads.  The buffer is dropped when
    [main] returns or unwinds. *)
Definition sframedump_io (abi_name : Z -> string) (pieces : string -> list string) (sk : sink)
    (md : mode) (native : endian) (sf : sframe) : list seen * exit :=
  let run := dump_run md native sf in
  let r := write_dump abi_name pieces sk (fst run) bw_new in
  (bw_log (bw_drop sk (fst r)),
   if snd r then match snd run with Ok _ => Succeeded | Err _ => Failed | Panic => Panicked end else Failed).

(** ** dwarfdump *)

(** dwarf2sframe/src/bin/dwarfdump.rs:70-116: after the dump the buffer is flushed,
    and a failure to write is reported like any other; the program succeeds. *)
Definition dwarfdump_io (p : printers_dd) (pieces : string -> list string) (sk : sink) (md : mode)
    (path : string) (file : dd_file) : list seen * exit :=
  let run := dump_file p md file in
  let r := write_lines pieces sk (stdout_of (fst run)) bw_new in
  let failed msg w := (bw_log (err_line ("Failed to dump '" ++ path ++ "': " ++ msg) (bw_drop sk w)), Succeeded) in
  if snd r then
    match snd run with
    | Ok _ =>
        let f := bw_flush sk (fst r) in
        if snd f then (bw_log (bw_drop sk (fst f)), Succeeded) else failed "IoError" (fst f)
    | Err g => failed ("GimliError(" ++ pr_gimli_debug p g ++ ")") (fst r)
    | Panic => (bw_log (bw_drop sk (fst r)), Panicked)
    end
  else failed "IoError" (fst r).

(** ** [println!] *)

(** Whether standard output takes the [n]-th line. *)
Definition line_sink : Type := nat -> bool.

(** A run that prints lines: how many lines before, how many afterwards, what was
    printed, and the result. *)
Definition wired (E A : Type) : Type := line_sink -> nat -> list event * nat * outcome E A.
Definition wired_ret {E A} (o : outcome E A) : wired E A := fun _ n => ([], n, o).
Definition wired_bind {E A B} (m : wired E A) (k : A -> wired E B) : wired E B :=
  fun sk n =>
    match m sk n with
    | (l, n', Ok a) => let '(l', n'', o) := k a sk n' in ((l ++ l')%list, n'', o)
    | (l, n', Err er) => (l, n', Err er)
    | (l, n', Panic) => (l, n', Panic)
    end.
Notation "'let~' x ':=' m 'in' k" := (wired_bind m (fun x => k))
  (at level 200, x name, m at level 100, k at level 200).
Notation "'let~' '_' ':=' m 'in' k" := (wired_bind m (fun _ => k))
  (at level 200, m at level 100, k at level 200).

(** The lines of [l] one after the other: what was printed, and whether all of it
    was. *)
Fixpoint emit_lines (sk : line_sink) (l : list event) (n : nat) : list event * nat * bool :=
  match l with
  | [] => ([], n, true)
  | ErrOut s :: t => let '(l', n', ok) := emit_lines sk t n in (ErrOut s :: l', n', ok)
  | Out s :: t =>
      if sk n then let '(l', n', ok) := emit_lines sk t (S n) in (Out s :: l', n', ok)
      else ([], S n, false)
  end.
(** A run whose lines are printed with [println!], which panics if that fails, or
    with [writeln!] and [?]. *)
Definition wire {E A} (failure : outcome E A) (m : loud E A) : wired E A :=
  fun sk n => match emit_lines sk (fst m) n with
              | (l, n', true) => (l, n', snd m)
              | (l, n', false) => (l, n', failure)
              end.
Definition by_println {E A} (m : loud E A) : wired E A := wire Panic m.
Definition by_writeln {E A} (er : E) (m : loud E A) : wired E A := wire (Err er) m.

(** [impl From<io::Error> for gimli::Error]: [Error::Io], whatever went wrong; an
    input, like all of gimli. *)
Definition convert_fde_wired (gio : gimli_error) (pr : printers) (md : mode) (op : options) (s : sfb) (f : dw_fde)
  : wired conv_error sfb :=
  let~ _ :=
    if op_debugdump op then
      let~ _ := by_println (
        let! _ := say [ Out "FDE:"; Out (" start_address: " ++ fmt_hex_alt_pad 64 10 (df_start f)) ] in
        let! e := quiet (add_u64 md (df_start f) (df_len f)) in
        say [ Out ("    range_size: " ++ fmt_hex_alt_pad 64 10 (df_len f) ++
                " (end_addr = " ++ fmt_hex_alt_pad 64 10 e ++ ")") ]) in
      let~ _ := by_writeln (InvalidDwarfFde gio)
        (loud_err InvalidDwarfFde (dump_cfi_instructions pr (op_arch op) (df_insns f))) in
      by_println (say [ Out ""; Out "Rows:" ])
    else wired_ret (Ok tt) in
  if (i32_max <? df_start f)%Z then wired_ret (Err (InvalidStartAddress (df_start f)))
  else if (i32_max <? df_len f)%Z then wired_ret (Err (InvalidFunctionLength (df_start f) (df_len f)))
  else
    let b := fdb_new (sb_options s) (as_s 32 (df_start f)) (as_u 32 (df_len f)) in
    match df_rows f with
    | inr g => wired_ret (Err (InvalidUnwindTable g))
    | inl rows =>
        let~ b := by_println (convert_rows_loud pr md op f (rows_list rows) b) in
        match rows_end rows with
        | Some g => wired_ret (Err (InvalidUnwindTable g))
        | None =>
            let~ b := wired_ret (if op_merge_fres op then of_fuel (merge_adjacent_fres b) else Ok b) in
            let~ s' := wired_ret (lift (sfb_fde s b)) in
            let~ _ := by_println (if op_debugdump op then say [ Out "" ] else say []) in
            wired_ret (Ok s')
        end
    end.

Fixpoint convert_entries_wired (gio : gimli_error) (pr : printers) (md : mode) (op : options) (l : list dw_entry) (s : sfb)
  : wired conv_error sfb :=
  match l with
  | [] => wired_ret (Ok s)
  | DwCie :: t => convert_entries_wired gio pr md op t s
  | DwBadFde g :: _ => wired_ret (Err (InvalidDwarfFde g))
  | DwGoodFde f :: t =>
      let~ s' := convert_fde_wired gio pr md op s f in
      convert_entries_wired gio pr md op t s'
  end.

(** [dwarf2sframe], dwarf2sframe2/src/lib.rs:142-178. *)
Definition dwarf2sframe_wired (gio : gimli_error) (pr : printers) (md : mode) (op : options) (eh : eh_frame)
  : wired conv_error sfb :=
  let~ s := convert_entries_wired gio pr md op (ents_list (eh_entries eh)) (sfb_new (conv_sfoptions op eh)) in
  match ents_end (eh_entries eh) with
  | Some g => wired_ret (Err (InvalidEhFrameEntry g))
  | None => wired_ret (if op_merge_fdes op then of_fuel (merge_adjacent_fdes md s) else Ok s)
  end.

Definition wired_err {E F A} (f : E -> F) (m : wired E A) : wired F A :=
  fun sk n => let '(l, n', o) := m sk n in (l, n', map_err f o).

(** [main], dwarf2sframe2/src/main.rs:30-114. *)
Definition dwarf2sframe2_main_wired (gio : gimli_error) (pr : printers) (md : mode) (args : cli_args) (input : option elf_file)
  : wired tool_error out_file :=
  match input with
  | None => wired_ret (Err ToolParse)
  | Some file =>
      let en := elf_endian file in
      let~ a :=
        wired_ret match elf_architecture file with
        | ElfX86_64 => Ok Amd64
        | ElfAarch64 => Ok Aarch64
        | _ => Err ToolUnsupportedArch
        end in
      match section_by_name ".eh_frame" (elf_sections file) with
      | None => wired_ret (Err ToolNoEhFrame)
      | Some _ =>
          match elf_eh_frame file with
          | None => wired_ret (Err ToolDecompress)
          | Some parse =>
              let eh := {| eh_big_endian := rt_is_big en;
                           eh_entries := parse (tool_setup md (elf_sections file)) |} in
              let~ s := wired_err ToolConvert (dwarf2sframe_wired gio pr md (cli_options args a en) eh) in
              let~ bs := wired_ret (map_err ToolBuild
                (match en with
                 | RtBig => build md BE s
                 | RtLittle => build md LE s
                 end)) in
              wired_ret (Ok {| out_arch := elf_architecture file; out_endian := en; out_sframe := bs |})
          end
      end
  end.

(** The same when every line is taken. *)
Definition dwarf2sframe2_main_loud (pr : printers) (md : mode) (args : cli_args) (input : option elf_file)
  : loud tool_error out_file :=
  match input with
  | None => quiet (Err ToolParse)
  | Some file =>
      let en := elf_endian file in
      let! a :=
        quiet match elf_architecture file with
        | ElfX86_64 => Ok Amd64
        | ElfAarch64 => Ok Aarch64
        | _ => Err ToolUnsupportedArch
        end in
      match section_by_name ".eh_frame" (elf_sections file) with
      | None => quiet (Err ToolNoEhFrame)
      | Some _ =>
          match elf_eh_frame file with
          | None => quiet (Err ToolDecompress)
          | Some parse =>
              let eh := {| eh_big_endian := rt_is_big en;
                           eh_entries := parse (tool_setup md (elf_sections file)) |} in
              let! s := loud_err ToolConvert (dwarf2sframe_loud pr md (cli_options args a en) eh) in
              let! bs := quiet (map_err ToolBuild
                (match en with
                 | RtBig => build md BE s
                 | RtLittle => build md LE s
                 end)) in
              quiet (Ok {| out_arch := elf_architecture file; out_endian := en; out_sframe := bs |})
          end
      end
  end.

(** The first version, dwarf2sframe/src/main.rs:98-350: everything is printed with
    [println!], except by [dump_cfi_instructions]. *)
Definition v1_fde_wired (gio : gimli_error) (p : printers1) (m : elf_arch) (md : mode) (s : sfb) (f : dw_fde)
  : wired v1_error sfb :=
  if (i32_max <? df_start f)%Z then wired_ret (Err (V1StartTooLarge (df_start f)))
  else if (i32_max <? df_len f)%Z then wired_ret (Err (V1LenTooLarge (df_len f)))
  else
    let b := fdb_new (sb_options s) (as_s 32 (df_start f)) (as_u 32 (df_len f)) in
    match df_rows f with
    | inr g => wired_ret (Err (V1Rows g))
    | inl rows =>
        let~ _ := by_println (
          let! _ := say [ Out "FDE:"; Out (" start_address: " ++ fmt_hex_alt_pad 64 10 (df_start f)) ] in
          let! e := quiet (add_u64 md (df_start f) (df_len f)) in
          say [ Out ("    range_size: " ++ fmt_hex_alt_pad 64 10 (df_len f) ++
                  " (end_addr = " ++ fmt_hex_alt_pad 64 10 e ++ ")") ]) in
        let~ _ := by_writeln (V1Dump gio) (loud_err V1Dump (v1_dump_insns p (df_insns f))) in
        let~ _ := by_println (say [ Out ""; Out "Rows:" ]) in
        let~ b := by_println (v1_rows_loud p m md f (rows_list rows) b) in
        match rows_end rows with
        | Some g => wired_ret (Err (V1NextRow g))
        | None =>
            let~ b := wired_ret (map_err (fun _ => V1OutOfFuel) (merge_adjacent_fres b)) in
            let~ s' := wired_ret (lift (sfb_fde s b)) in
            let~ _ := by_println (say [ Out "" ]) in
            wired_ret (Ok s')
        end
    end.
Fixpoint v1_entries_wired (gio : gimli_error) (p : printers1) (m : elf_arch) (md : mode) (l : list dw_entry) (s : sfb)
  : wired v1_error sfb :=
  match l with
  | [] => wired_ret (Ok s)
  | DwCie :: t => v1_entries_wired gio p m md t s
  | DwBadFde g :: _ => wired_ret (Err (V1Fde g))
  | DwGoodFde f :: t =>
      let~ s' := v1_fde_wired gio p m md s f in
      v1_entries_wired gio p m md t s'
  end.
Definition v1_convert_wired (gio : gimli_error) (p : printers1) (m : elf_arch) (md : mode) (ents : dw_entries)
  : wired v1_error sfb :=
  let~ s := v1_entries_wired gio p m md (ents_list ents) (sfb_new v1_options) in
  match ents_end ents with
  | Some g => wired_ret (Err (V1Entry g))
  | None => wired_ret (map_err (fun _ => V1OutOfFuel) (merge_adjacent_fdes md s))
  end.
Definition v1_main_wired (gio : gimli_error) (p : printers1) (md : mode) (native : endian) (input : option elf_file)
  : wired v1_error out_file :=
  match input with
  | None => wired_ret (Err V1Parse)
  | Some file =>
      match section_by_name ".eh_frame" (elf_sections file) with
      | None => wired_ret (Err V1NoEhFrame)
      | Some _ =>
          match elf_eh_frame file with
          | None => wired_ret (Err V1Decompress)
          | Some parse =>
              let~ _ := by_println (say (sections_print (elf_sections file))) in
              let~ s := v1_convert_wired gio p (elf_architecture file) md (parse (tool_setup md (elf_sections file))) in
              let~ bs := wired_ret (map_err V1Build (build md native s)) in
              wired_ret (Ok {| out_arch := elf_architecture file; out_endian := elf_endian file; out_sframe := bs |})
          end
      end
  end.

(** ** The output file *)

(** [std::fs::write]: the file is created or truncated ([fw_open] false: that
    fails), then [fw_room] bytes fit ([None]: all). *)
Record file_write : Type := FileWrite {
  fw_open : bool;
  fw_room : option nat }.
Definition fs_write (fw : file_write) (data : bytes) (before : option bytes) : option bytes * bool :=
  if fw_open fw then
    match fw_room fw with
    | None => (Some data, true)
    | Some n => if (n <? List.length data)%nat then (Some (firstn n data), false) else (Some data, true)
    end
  else (before, false).

(** The end of both converters' [main] (dwarf2sframe2/src/main.rs:90-113,
    dwarf2sframe/src/main.rs:326-349): [object]'s [emit] is an input ([None]: it
    fails); the file is written last.  [r] is what the run came to before. *)
Definition finish {E} (emit : out_file -> option bytes) (fw : file_write) (before : option bytes) (r : outcome E out_file)
  : option bytes * exit :=
  match r with
  | Ok o =>
      match emit o with
      | None => (before, Failed)
      | Some data =>
          let w := fs_write fw data before in
          (fst w, if snd w then Succeeded else Failed)
      end
  | Err _ => (before, Failed)
  | Panic => (before, Panicked)
  end.
