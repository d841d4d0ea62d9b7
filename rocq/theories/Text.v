(** What is printed: the [Display] implementations, the text of [sframedump],
    and the parts of Rust's formatting that they use.

    All text of the repository is ASCII; a Rust string is a [string]. *)
From Coq Require Import String Ascii.
From Verif Require Import Base BTree Raw Read Write Convert Tools.
Local Open Scope string_scope.

(** ** Rust's formatting of integers *)

Definition digit_char (d : Z) : ascii :=
  match String.get (Z.to_nat d) "0123456789abcdef" with Some c => c | None => "0" end%char.

(** Digits of [n >= 0] in base [b], most significant first, without leading
    zeros.  The fuel is the number of binary digits. *)
Fixpoint digits_acc (fuel : nat) (b n : Z) (acc : string) : string :=
  match fuel with
  | O => acc
  | S k =>
      let acc' := String (digit_char (n mod b)) acc in
      if (n / b =? 0)%Z then acc' else digits_acc k b (n / b) acc'
  end.
Definition digits (b n : Z) : string := digits_acc (S (Z.to_nat (Z.log2 n))) b n "".

(** [{}] *)
Definition fmt_dec (z : Z) : string :=
  if (z <? 0)%Z then "-" ++ digits 10 (- z) else digits 10 z.
(** [{:+}] *)
Definition fmt_plus (z : Z) : string :=
  if (z <? 0)%Z then "-" ++ digits 10 (- z) else "+" ++ digits 10 z.
(** [{:x}] on a type of [w] bits; negative values print as two's complement. *)
Definition fmt_hex (w z : Z) : string := digits 16 (as_u w z).

Fixpoint repeat_char (c : ascii) (n : nat) : string :=
  match n with O => "" | S k => String c (repeat_char c k) end.
(** Padding with zeros on the left, up to [n] characters. *)
Definition zero_pad (n : nat) (s : string) : string := repeat_char "0" (n - String.length s) ++ s.
(** [{: <n}] on a string. *)
Definition pad_right (n : nat) (s : string) : string := s ++ repeat_char " " (n - String.length s).

(** [{:#x}] *)
Definition fmt_hex_alt (w z : Z) : string := "0x" ++ fmt_hex w z.
(** [{:#0nx}]: [n] counts the prefix. *)
Definition fmt_hex_alt_pad (w : Z) (n : nat) (z : Z) : string := "0x" ++ zero_pad (n - 2) (fmt_hex w z).
(** [{:0nx}] *)
Definition fmt_hex_pad (w : Z) (n : nat) (z : Z) : string := zero_pad n (fmt_hex w z).

Definition newline : string := String (ascii_of_nat 10) "".

(** ** Error messages *)

(** [Display for ReadError], sframe/src/error.rs:37-61. *)
Definition read_error_text (er : read_error) : string :=
  match er with
  | UnsupportedVersion v => "unsupported sframe version (" ++ fmt_dec v ++ ")"
  | UnsupportedFdeType t => "unsupported FDE type (" ++ fmt_dec (fde_type_u8 t) ++ ")"
  | UnsupportedFreType t => "unsupported FRE type (" ++ fmt_dec (fre_type_u8 t) ++ ")"
  | UnsupportedFreOffset o => "unsupported FRE offset type (" ++ fmt_dec (fre_offset_u8 o) ++ ")"
  | UnexpectedEof => "unexpected end-of-input when reading sframe section"
  | IncorrectEndian => "the section endianness does not match that of the reader"
  | InvalidFdeRepBlockSize => "FDE had a repeated block size of 0"
  | MissingFreOffset => "FRE was missing an expected offset"
  | InvalidFreOffsetCount c =>
      "FRE had too many offset values (expected 1 to 3, got " ++ fmt_dec c ++ " instead)"
  end.

(** [Display for FrameRowError], write.rs:656-681. *)
Definition row_error_text (er : row_error) : string :=
  match er with
  | StartAddressTooLarge => "FRE start offset was larger than 0x10000000"
  | StartAddressLargerThanRepSize => "FRE start offset was larger than the specified FDE repetition size"
  | StartAddressOutsideFde => "FRE start address outside of the address range of its FDE"
  | MissingRaOffset => "FRE was missing a required offset for the return address"
  | MissingFpOffset => "FRE was missing a required offset for the frame pointer"
  | UnexpectedRaOffset => "provided return address offset did not match the offset specified in the section header"
  | UnexpectedFpOffset => "provided function pointer offset did not match the one specified in the section header"
  | DuplicateRow => "FDE already contains a row with the same start address"
  end.

(** [Display for EmitError], write.rs:703-714. *)
Definition emit_error_text (er : emit_error) : string :=
  match er with
  | OverlappingFdes => "multiple FDEs cover the same address ranges"
  | SectionTooLarge => "sframe section length would be too large to represent offsets"
  end.

(** [Display for Error], dwarf2sframe2/src/error.rs:40-63.  [g] is gimli's
    [Display]. *)
Definition conv_error_text (g : gimli_error -> string) (er : conv_error) : string :=
  match er with
  | InvalidEhFrameEntry x => "invalid .eh_frame entry: " ++ g x
  | InvalidDwarfFde x => "invalid DWARF FDE: " ++ g x
  | InvalidUnwindTable x => "invalid DWARF unwind table: " ++ g x
  | InvalidStartAddress a => "DWARF FDE start address " ++ fmt_hex_alt 64 a ++ " larger than 0x10000000"
  | InvalidRowOffset _ o => "DWARF FDE row offset " ++ fmt_hex_alt 64 o ++ " larger than 0x10000000"
  | InvalidFunctionLength a l =>
      "DWARF FDE for address " ++ fmt_hex_alt 64 a ++ " had length " ++ fmt_hex_alt 64 l ++ " larger than 0x10000000"
  | ConvOutOfFuel => ""
  end.

(** ** sframedump, sframedump/src/main.rs:68-156 *)

(** Lines 120-138. *)
Definition cell_text (c : cell) : string :=
  match c with
  | CellUnknown => "u"
  | CellBase Fp o => "fp" ++ fmt_plus o
  | CellBase Sp o => "sp" ++ fmt_plus o
  | CellCfa o => "cfa" ++ fmt_plus o
  end.

Definition fixed_text (o : option Z) : string :=
  match o with Some z => fmt_dec z | None => "none" end.

(** The lines written to stdout for an item of the dump.  [abi_name] is the
    [Debug] text of [Abi], which the [c_enum] crate generates. *)
Definition line_text (abi_name : Z -> string) (ln : dump_line) : list string :=
  match ln with
  | LineHeader v fl nd nr a fp ra =>
      [ "Header:";
        "  Version:  " ++ fmt_dec v;
        "  Flags:    " ++ fmt_hex_alt 8 fl;
        "  Num FDEs: " ++ fmt_dec nd;
        "  Num FREs: " ++ fmt_dec nr;
        "  Arch/ABI: " ++ abi_name a;
        "  Fixed FP Offset: " ++ fixed_text fp;
        "  Fixed RA Offset: " ++ fixed_text ra ]
  | LineIndex => [ "Function Index:" ]
  | LineFunc idx start size =>
      [ "  func idx [" ++ fmt_dec idx ++ "]: pc = " ++ fmt_hex_alt 32 start ++ ", size = " ++ fmt_dec size ++ " bytes" ]
  | LineColumns ty =>
      let marker := match ty with PPcInc => "   " | PPcMask => "[m]" | PPcMaskV1 => "[1]" end in
      [ "  STARTPC " ++ marker ++ "      CFA          FP           RA" ]
  | LineRow start cfa fp ra mangled =>
      [ "  " ++ fmt_hex_pad 32 16 start ++ " " ++ pad_right 12 (cell_text cfa) ++ " " ++
        pad_right 12 (cell_text fp) ++ " " ++ cell_text ra ++ (if mangled then " [s]" else "") ]
  | LineBlank => [ "" ]
  | LineErr _ => []
  end.

(** The lines written to stderr (line 115). *)
Definition line_stderr (ln : dump_line) : list string :=
  match ln with LineErr er => [ "  error decoding FRE: " ++ read_error_text er ] | _ => [] end.

(** [writeln!] ends every line. *)
Definition unlines (l : list string) : string := String.concat "" (map (fun s => s ++ newline) l).

Definition stdout_text (abi_name : Z -> string) (l : list dump_line) : string :=
  unlines (flat_map (line_text abi_name) l).
Definition stderr_text (l : list dump_line) : string := unlines (flat_map line_stderr l).
