(** Specification of the messages of the reader and of the writer: what each
    sentence claims. *)
From Coq Require Import String.
From Verif Require Export TextSpec.
Local Open Scope string_scope.

(** [text] is a sentence with the decimal number [n] between [pre] and [post]. *)
Definition mentions (pre post text : string) (n : Z) : Prop :=
  exists w, text = pre ++ w ++ post /\ number 10 w = Some n.

(** ** Loading a section *)

(** The section is in the other byte order. *)
Definition other_order (e : endian) (bs : bytes) : Prop := good_magic (swap e) bs.
Definition load_message_true (e : endian) (bs : bytes) (text : string) : Prop :=
  (text = "the section endianness does not match that of the reader" /\ other_order e bs) \/
  (exists v, mentions "unsupported sframe version (" ")" text v /\ good_magic e bs /\ v = spec_version bs /\ ~ good_version bs) \/
  (text = "unexpected end-of-input when reading sframe section" /\
   (zlen bs < 4 \/ (good_magic e bs /\ good_version bs /\ ~ layout_fits e bs))).

(** ** Reading a row *)

(** The row at the front of [bs] needs more bytes than there are. *)
Definition row_cut_off (e : endian) (f : fde) (bs : bytes) : Prop :=
  exists aw, width_of (fre_type_num (fde_info f)) = Some aw /\
    (zlen bs < aw + 1 \/
     exists ow, width_of (bits 5 2 (u_at e aw 1 bs)) = Some ow /\ zlen bs < aw + 1 + bits 1 4 (u_at e aw 1 bs) * ow).
(** Number of offsets, and how wide they are, in the row at the front of [bs]. *)
Definition offsets_declared (e : endian) (f : fde) (bs : bytes) (count width : Z) : Prop :=
  exists aw, width_of (fre_type_num (fde_info f)) = Some aw /\ aw + 1 <= zlen bs /\
    count = bits 1 4 (u_at e aw 1 bs) /\ width = bits 5 2 (u_at e aw 1 bs).
Definition row_message_true (e : endian) (f : fde) (bs : bytes) (text : string) : Prop :=
  (exists n, mentions "unsupported FRE type (" ")" text n /\ n = fre_type_num (fde_info f) /\ width_of n = None) \/
  (exists n c, mentions "unsupported FRE offset type (" ")" text n /\ offsets_declared e f bs c n /\ width_of n = None) \/
  (exists n w, mentions "FRE had too many offset values (expected 1 to 3, got " " instead)" text n /\
     offsets_declared e f bs n w /\ 3 < n) \/
  (text = "unexpected end-of-input when reading sframe section" /\ row_cut_off e f bs).

(** ** Using a row *)

(** The row has no offset with this index. *)
Definition offset_message_true (fr : fre) (index : Z) (text : string) : Prop :=
  text = "FRE was missing an expected offset" /\ zlen (sr_offsets (view_fre fr)) <= index.

(** ** Looking up an address *)

(** The function repeats blocks of size 0, or one of its rows cannot be read. *)
Definition lookup_message_true (e : endian) (en : entry) (text : string) : Prop :=
  (text = "FDE had a repeated block size of 0" /\ en_fdetype en = PPcMask /\ sd_rep (view_fde (en_fde en)) = Some 0%Z) \/
  exists before rest, en_fres en = (before ++ rest)%list /\ row_message_true e (en_fde en) rest text.

(** ** Building a section *)

(** Two functions share an address. *)
Definition shared_address (s : sfb) : Prop :=
  exists a b x, In a (fdes_of s) /\ In b (fdes_of s) /\ a <> b /\
    in_range (fb_start a) (fb_size a) x /\ in_range (fb_start b) (fb_size b) x.
Definition emit_message_true (s : sfb) (text : string) : Prop :=
  (text = "multiple FDEs cover the same address ranges" /\ shared_address s) \/
  (text = "sframe section length would be too large to represent offsets" /\ too_large s).
