(** Messages and columns with repairs: error texts that say what is the case.

    Each repair is a switch; without any of them the texts are those of [Text.v]
    (MsgRepairedFacts.v).  The errors are those of the converter as repaired in
    ConvRepaired.v. *)
From Coq Require Import String Ascii.
From Verif Require Import Base BTree Raw Read Write Convert Tools Text ConvRepaired.
Local Open Scope string_scope.

Record mfixes : Type := MFixes {
  say_limit : bool; (* the limit that is applied, and that it is refused itself *)
  say_row : bool; (* which row lies too far behind the start of its function *)
  say_magic : bool; (* input in neither byte order is no section *)
  say_count : bool; (* no offsets are as good as one *)
  say_empty : bool; (* an empty function inside another covers nothing *)
  say_wide : bool (* columns of sframedump as wide as their cells can get *) }.
Definition no_mfixes : mfixes := MFixes false false false false false false.
Definition all_mfixes : mfixes := MFixes true true true true true true.

(** ** The writer *)

(** [Display for FrameRowError], write.rs:656-681. *)
Definition row_error_text_with (fx : mfixes) (er : row_error) : string :=
  match er with
  | StartAddressTooLarge =>
      if say_limit fx then "FRE start offset was 0x10000000 or larger" else row_error_text er
  | StartAddressLargerThanRepSize =>
      if say_limit fx then "FRE start offset was not below the specified FDE repetition size" else row_error_text er
  | _ => row_error_text er
  end.

(** [EmitError] (write.rs:688-714) with one more case. *)
Inductive told_error : Type := EmptyInside | Told (er : emit_error).
Definition told_text (er : told_error) : string :=
  match er with
  | EmptyInside => "an empty FDE lies within the address range of another"
  | Told er => emit_error_text er
  end.
(** As [has_overlap] (write.rs:176-183), with the second function of the pair. *)
Fixpoint overlap_at {E} (md : mode) (l : list fdb) : outcome E (option fdb) :=
  match l with
  | a :: ((b :: _) as t) =>
      if debug_asserts md && negb (fb_start a <=? fb_start b)%Z then Panic
      else
        let* d := sub_i32 md (fb_start b) (fb_start a) in
        if (as_u 32 d <? fb_size a)%Z then Ok (Some b) else overlap_at md t
  | _ => Ok None
  end.
(** [build], write.rs:165-341; what follows the check is as in [build]. *)
Definition build_told (fx : mfixes) (md : mode) (e : endian) (s : sfb) : outcome told_error bytes :=
  let* ov := overlap_at md (bt_values (sb_fdes s)) in
  match ov with
  | Some b => Err (if say_empty fx && (fb_size b =? 0)%Z then EmptyInside else Told OverlappingFdes)
  | None => map_err Told (build md e s)
  end.

(** ** The reader *)

(** [ReadError] (error.rs) with one more case. *)
Inductive load_error : Type := NoSection | Loading (er : read_error).
Definition read_error_text_with (fx : mfixes) (er : read_error) : string :=
  match er with
  | InvalidFreOffsetCount c =>
      if say_count fx then "FRE had too many offset values (expected 0 to 3, got " ++ fmt_dec c ++ " instead)"
      else read_error_text er
  | _ => read_error_text er
  end.
Definition load_error_text (fx : mfixes) (er : load_error) : string :=
  match er with
  | NoSection => "the input does not begin with the sframe magic number"
  | Loading er => read_error_text_with fx er
  end.
(** [MAGIC.swap_bytes()] *)
Definition MAGIC_SWAPPED : Z := 0xe2de.
(** [SFrame::load], read.rs:26-95: one more check in front of line 36. *)
Definition load_told (fx : mfixes) (md : mode) (e : endian) (section : bytes) : outcome load_error sframe :=
  let* pre := ok_or (preamble_from_prefix e section) (Loading UnexpectedEof) in
  if say_magic fx && negb (pre_magic pre =? MAGIC)%Z && negb (pre_magic pre =? MAGIC_SWAPPED)%Z then Err NoSection
  else map_err Loading (load md e section).

(** ** The converter *)

(** [Display for Error], dwarf2sframe2/src/error.rs:40-63, with the errors of
    ConvRepaired.v.  A length is refused if the function ends beyond the limit. *)
Definition conv_error_text_with (fx : mfixes) (g : gimli_error -> string) (er : repair_error) : string :=
  match er with
  | AsBefore (InvalidStartAddress a) =>
      "DWARF FDE start address " ++ fmt_hex_alt 64 a ++ " larger than " ++
      (if say_limit fx then "0x7fffffff" else "0x10000000")
  | AsBefore (InvalidRowOffset a o) =>
      (if say_row fx then "DWARF FDE row " ++ fmt_hex_alt 64 a ++ " at offset " else "DWARF FDE row offset ") ++
      fmt_hex_alt 64 o ++
      (if say_limit fx then " not below 0x7fffffff" else " larger than 0x10000000")
  | AsBefore (InvalidFunctionLength a l) =>
      "DWARF FDE for address " ++ fmt_hex_alt 64 a ++ " had length " ++ fmt_hex_alt 64 l ++
      (if say_limit fx then " and ended behind 0x7fffffff" else " larger than 0x10000000")
  | AsBefore er => conv_error_text g er
  | RowInFront a => "DWARF FDE row " ++ fmt_hex_alt 64 a ++ " lies in front of its function"
  | RowRefused a er => "DWARF FDE row " ++ fmt_hex_alt 64 a ++ " refused: " ++ row_error_text_with fx er
  end.

(** ** sframedump *)

(** main.rs:99-138: the widest cell is [cfa-2147483648]. *)
Definition cell_width (fx : mfixes) : nat := if say_wide fx then 14 else 12.
Definition line_text_with (fx : mfixes) (abi_name : Z -> string) (ln : dump_line) : list string :=
  match ln with
  | LineColumns ty =>
      let marker := match ty with PPcInc => "   " | PPcMask => "[m]" | PPcMaskV1 => "[1]" end in
      [ "  STARTPC " ++ marker ++ "      " ++ pad_right (cell_width fx) "CFA" ++ " " ++ pad_right (cell_width fx) "FP" ++ " RA" ]
  | LineRow start cfa fp ra mangled =>
      [ "  " ++ fmt_hex_pad 32 16 start ++ " " ++ pad_right (cell_width fx) (cell_text cfa) ++ " " ++
        pad_right (cell_width fx) (cell_text fp) ++ " " ++ cell_text ra ++ (if mangled then " [s]" else "") ]
  | _ => line_text abi_name ln
  end.
