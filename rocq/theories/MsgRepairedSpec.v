(** What the repaired messages claim. *)
From Coq Require Import String Ascii.
From Verif Require Export ConvRepairedSpec MessageSpec MsgRepaired.
Local Open Scope string_scope.

(** ** The writer *)

Definition more_row_sentences : list (string * (fdb -> row -> Prop)) :=
  (("FRE start offset was 0x10000000 or larger", fun _ r => 0x10000000 <= r_start r) ::
   ("FRE start offset was not below the specified FDE repetition size",
    fun b r => exists rep, fb_rep_size b = Some rep /\ rep <= r_start r) ::
   row_sentences)%list.
(** [text] is a sentence that says [claim] of a row. *)
Definition row_text_claims (text : string) (claim : fdb -> row -> Prop) : Prop :=
  find_sentence text more_row_sentences = Some claim.

Definition told_true (s : sfb) (text : string) : Prop :=
  emit_message_true s text \/
  (text = "an empty FDE lies within the address range of another" /\
   exists a b, In a (fdes_of s) /\ In b (fdes_of s) /\ a <> b /\ fb_size b = 0 /\
     in_range (fb_start a) (fb_size a) (fb_start b)).

(** ** The reader *)

Definition load_told_true (e : endian) (bs : bytes) (text : string) : Prop :=
  load_message_true e bs text \/
  (text = "the input does not begin with the sframe magic number" /\ ~ good_magic e bs /\ ~ other_order e bs).
(** The row at the front of [bs] has more than [hi] offsets; [lo] to [hi] are called
    expected. *)
Definition count_message (e : endian) (f : fde) (bs : bytes) (lo hi : Z) (text : string) : Prop :=
  exists los his ns n w, text = "FRE had too many offset values (expected " ++ los ++ " to " ++ his ++ ", got " ++ ns ++ " instead)" /\
    number 10 los = Some lo /\ number 10 his = Some hi /\ number 10 ns = Some n /\
    offsets_declared e f bs n w /\ hi < n.
(** Exactly with [lo] to [hi] offsets a row is not rejected that is well-formed otherwise. *)
Definition counts_read (md : mode) (e : endian) (lo hi : Z) : Prop :=
  forall f bs c w, fde_ok f -> offsets_declared e f bs c w -> width_of w <> None -> ~ row_cut_off e f bs ->
    ((exists er, fre_load md e f bs = Err er) <-> ~ (lo <= c <= hi)).
(** As [row_message_true], and what is called expected is what is accepted. *)
Definition row_told_true (md : mode) (e : endian) (f : fde) (bs : bytes) (text : string) : Prop :=
  (exists n, mentions "unsupported FRE type (" ")" text n /\ n = fre_type_num (fde_info f) /\ width_of n = None) \/
  (exists n c, mentions "unsupported FRE offset type (" ")" text n /\ offsets_declared e f bs c n /\ width_of n = None) \/
  (exists lo hi, count_message e f bs lo hi text /\ counts_read md e lo hi) \/
  (text = "unexpected end-of-input when reading sframe section" /\ row_cut_off e f bs).

(** ** The converter *)

(** What a refused row is said to be, in a function [f] with the rows [before] in
    front of it; [fixed] is the RA offset of the header. *)
Definition refused_sentences (a : arch) (fixed : option Z) : list (string * (dw_fde -> list dw_row -> dw_row -> Prop)) :=
  [("FRE start offset was 0x10000000 or larger", fun f _ r => 0x10000000 <= off f r);
   ("FRE start address outside of the address range of its FDE",
    fun f _ r => ~ in_range (df_start f) (df_len f) (dr_start r));
   ("provided return address offset did not match the offset specified in the section header",
    fun _ _ r => exists x y, dr_register r (reg_ra a) = ROffset x /\ fixed = Some y /\ x <> y);
   ("FDE already contains a row with the same start address",
    fun _ before r => exists r', In r' before /\ wide r' /\ dr_start r' = dr_start r)].
(** [DWARF FDE row 0x401000 refused: message] *)
Definition read_refused (text : string) : option (Z * string) :=
  match after "DWARF FDE row " text with
  | Some t =>
      match upto " " t with
      | Some (n, t) =>
          match hex_word n, after "refused: " t with
          | Some n, Some m => Some (n, m)
          | _, _ => None
          end
      | None => None
      end
  | None => None
  end.
Definition conv_told_true (g : gimli_error -> string) (op : options) (eh : eh_frame) (text : string) : Prop :=
  (exists a m, numbers_in "DWARF FDE start address # larger than #" text = Some [a; m] /\
     exists f, In f (functions (entries_of eh)) /\ df_start f = a /\ m < a) \/
  (exists a o m, numbers_in "DWARF FDE row # at offset # not below #" text = Some [a; o; m] /\
     exists f r, In f (functions (entries_of eh)) /\ In r (wide_rows f) /\ dr_start r = a /\ off f r = o /\ m <= o) \/
  (exists a n m, numbers_in "DWARF FDE for address # had length # and ended behind #" text = Some [a; n; m] /\
     exists f, In f (functions (entries_of eh)) /\ df_start f = a /\ df_len f = n /\ m < a + n) \/
  (exists a, numbers_in "DWARF FDE row # lies in front of its function" text = Some [a] /\
     exists f r, In f (functions (entries_of eh)) /\ In r (wide_rows f) /\ dr_start r = a /\ a < df_start f) \/
  (exists a why claim, read_refused text = Some (a, why) /\
     find_sentence why (refused_sentences (op_arch op) (fixed_ra_of op eh)) = Some claim /\
     exists f before r rest, In f (functions (entries_of eh)) /\ dw_rows_of f = (before ++ r :: rest)%list /\ wide r /\
       dr_start r = a /\ claim f before r) \/
  (exists x, text = "invalid .eh_frame entry: " ++ g x /\ entries_report eh x) \/
  (exists x, text = "invalid DWARF FDE: " ++ g x /\ In (DwBadFde x) (entries_of eh)) \/
  (exists x, text = "invalid DWARF unwind table: " ++ g x /\ table_report eh x).
(** Nothing in the section is beyond a limit that a message names: [m] for starts and
    ends, [n] for offsets of rows. *)
Definition within_limits (m n : Z) (eh : eh_frame) : Prop :=
  forall f, In f (functions (entries_of eh)) ->
    df_start f <= m /\ df_start f + df_len f <= m /\
    forall r, In r (wide_rows f) -> df_start f <= dr_start r /\ off f r < n.
(** [text] names the limit [m]. *)
Definition limit_named (text : string) (m : Z) : Prop :=
  (exists a, numbers_in "DWARF FDE start address # larger than #" text = Some [a; m]) \/
  (exists a n, numbers_in "DWARF FDE for address # had length # and ended behind #" text = Some [a; n; m]) \/
  (exists a o, numbers_in "DWARF FDE row # at offset # not below #" text = Some [a; o; m]).

(** Numbers of errors fit their types. *)
Definition repair_error_typed (er : repair_error) : Prop :=
  match er with
  | AsBefore (InvalidStartAddress a) => in_u64 a
  | AsBefore (InvalidRowOffset a o) => in_u64 a /\ in_u64 o
  | AsBefore (InvalidFunctionLength a n) => in_u64 a /\ in_u64 n
  | AsBefore _ => True
  | RowInFront a => in_u64 a
  | RowRefused a _ => in_u64 a
  end.

(** ** Columns *)

Definition cell_in_range (c : cell) : Prop :=
  match c with CellUnknown => True | CellBase _ o | CellCfa o => in_i32 o end.

(** ** Looking up an address *)

Definition lookup_told_true (md : mode) (e : endian) (en : entry) (text : string) : Prop :=
  (text = "FDE had a repeated block size of 0" /\ en_fdetype en = PPcMask /\ sd_rep (view_fde (en_fde en)) = Some 0%Z) \/
  exists before rest, en_fres en = (before ++ rest)%list /\ row_told_true md e (en_fde en) rest text.
