(** Specification of printed text: how a person reads it.  Nothing here uses the
    formatting functions of [Text.v]. *)
From Coq Require Import String Ascii.
From Verif Require Export ToolsSpec Text.
Local Open Scope string_scope.

(** ** Characters, lines and words *)

Definition newline_char : ascii := ascii_of_nat 10.
Definition space_char : ascii := ascii_of_nat 32.

(** [c] does not occur in [s]. *)
Fixpoint without (c : ascii) (s : string) : Prop :=
  match s with "" => True | String x t => x <> c /\ without c t end.

(** The pieces of [s] between separators; the piece in front is [cur]. *)
Fixpoint split_at (c : ascii) (cur s : string) : list string :=
  match s with
  | "" => [cur]
  | String x t => if Ascii.eqb x c then cur :: split_at c "" t else split_at c (cur ++ String x "") t
  end.

(** Text is a sequence of lines, each ended by a newline. *)
Definition lines (s : string) : option (list string) :=
  match rev (split_at newline_char "" s) with
  | "" :: t => Some (rev t)
  | _ => None
  end.
(** Words are separated by one or more spaces. *)
Definition words (s : string) : list string :=
  filter (fun w => negb (String.eqb w "")) (split_at space_char "" s).

(** ** Numbers *)

Definition digit_value (c : ascii) : option Z :=
  let n := Z.of_nat (nat_of_ascii c) in
  if ((48 <=? n) && (n <=? 57))%Z then Some (n - 48)
  else if ((97 <=? n) && (n <=? 102))%Z then Some (n - 87)
  else None.
Fixpoint number_from (b v : Z) (s : string) : option Z :=
  match s with
  | "" => Some v
  | String c t =>
      match digit_value c with
      | Some d => if (d <? b)%Z then number_from b (v * b + d) t else None
      | None => None
      end
  end.
(** A number without sign in base [b]. *)
Definition number (b : Z) (s : string) : option Z :=
  match s with "" => None | _ => number_from b 0 s end.
(** A decimal number with an optional sign. *)
Definition integer (s : string) : option Z :=
  match s with
  | String "-" t => option_map Z.opp (number 10 t)
  | String "+" t => number 10 t
  | _ => number 10 s
  end.
(** A 32-bit pattern as a signed number. *)
Definition signed32 (n : Z) : Z := if (n <? 2 ^ 31)%Z then n else n - 2 ^ 32.

(** ** Reading pieces *)

(** What follows the text [p]. *)
Fixpoint after (p s : string) : option string :=
  match p, s with
  | "", _ => Some s
  | String a p', String b s' => if Ascii.eqb a b then after p' s' else None
  | _, _ => None
  end.
(** What stands in front of and behind the first [c]. *)
Fixpoint upto (c : ascii) (s : string) : option (string * string) :=
  match s with
  | "" => None
  | String x t =>
      if Ascii.eqb x c then Some ("", t)
      else match upto c t with Some (a, b) => Some (String x a, b) | None => None end
  end.

(** ** The output of sframedump *)

Definition read_cell (s : string) : option cell :=
  if String.eqb s "u" then Some CellUnknown
  else match after "sp" s with
       | Some n => option_map (CellBase Sp) (integer n)
       | None => match after "fp" s with
                 | Some n => option_map (CellBase Fp) (integer n)
                 | None => match after "cfa" s with
                           | Some n => option_map CellCfa (integer n)
                           | None => None
                           end
                 end
       end.

(** A row: address, CFA, FP, RA, and [[s]] if the return address is signed. *)
Definition read_row (s : string) : option dump_line :=
  let row h c f r signed :=
    match number 16 h, read_cell c, read_cell f, read_cell r with
    | Some a, Some c, Some f, Some r => Some (LineRow (signed32 a) c f r signed)
    | _, _, _, _ => None
    end in
  match words s with
  | [h; c; f; r] => row h c f r false
  | [h; c; f; r; m] => if String.eqb m "[s]" then row h c f r true else None
  | _ => None
  end.

(** [  func idx [0]: pc = 0x1000, size = 32 bytes] *)
Definition read_func (s : string) : option dump_line :=
  match after "  func idx [" s with
  | None => None
  | Some s =>
      match upto "]" s with
      | None => None
      | Some (i, s) =>
          match after ": pc = 0x" s with
          | None => None
          | Some s =>
              match upto "," s with
              | None => None
              | Some (a, s) =>
                  match after " size = " s with
                  | None => None
                  | Some s =>
                      match upto " " s with
                      | None => None
                      | Some (n, unit) =>
                          match String.eqb unit "bytes", number 10 i, number 16 a, number 10 n with
                          | true, Some i, Some a, Some n => Some (LineFunc i (signed32 a) n)
                          | _, _, _, _ => None
                          end
                      end
                  end
              end
          end
      end
  end.

(** The headings of the columns, with the kind of the function. *)
Definition read_columns (s : string) : option dump_line :=
  match words s with
  | ["STARTPC"; "CFA"; "FP"; "RA"] => Some (LineColumns PPcInc)
  | ["STARTPC"; "[m]"; "CFA"; "FP"; "RA"] => Some (LineColumns PPcMask)
  | ["STARTPC"; "[1]"; "CFA"; "FP"; "RA"] => Some (LineColumns PPcMaskV1)
  | _ => None
  end.

(** A line of the function index. *)
Definition read_line (s : string) : option dump_line :=
  if String.eqb s "" then Some LineBlank
  else match read_func s with
       | Some l => Some l
       | None => match read_columns s with
                 | Some l => Some l
                 | None => read_row s
                 end
       end.

Fixpoint read_lines (l : list string) : option (list dump_line) :=
  match l with
  | [] => Some []
  | s :: t => match read_line s, read_lines t with
              | Some x, Some y => Some (x :: y)
              | _, _ => None
              end
  end.

(** The header. *)
Record header_shown : Type := HeaderShown {
  hs_version : Z; hs_flags : Z; hs_fdes : Z; hs_fres : Z; hs_abi : string;
  hs_fp : option Z; hs_ra : option Z }.

(** [none] or a number. *)
Definition read_fixed (s : string) : option (option Z) :=
  if String.eqb s "none" then Some None else option_map Some (integer s).

Definition read_header (l : list string) : option header_shown :=
  match l with
  | [t; v; fl; nd; nr; a; fp; ra] =>
      match String.eqb t "Header:", after "  Version:  " v, after "  Flags:    0x" fl,
            after "  Num FDEs: " nd, after "  Num FREs: " nr, after "  Arch/ABI: " a,
            after "  Fixed FP Offset: " fp, after "  Fixed RA Offset: " ra with
      | true, Some v, Some fl, Some nd, Some nr, Some a, Some fp, Some ra =>
          match number 10 v, number 16 fl, number 10 nd, number 10 nr, read_fixed fp, read_fixed ra with
          | Some v, Some fl, Some nd, Some nr, Some fp, Some ra => Some (HeaderShown v fl nd nr a fp ra)
          | _, _, _, _, _, _ => None
          end
      | _, _, _, _, _, _, _, _ => None
      end
  | _ => None
  end.

(** The whole output: header, a blank line, a heading, the function index. *)
Definition read_dump (text : string) : option (header_shown * list dump_line) :=
  match lines text with
  | Some (a :: b :: c :: d :: e :: f :: g :: h :: blank :: title :: rest) =>
      match read_header [a; b; c; d; e; f; g; h], String.eqb blank "", String.eqb title "Function Index:", read_lines rest with
      | Some hd, true, true, Some l => Some (hd, l)
      | _, _, _, _ => None
      end
  | _ => None
  end.

(** Errors are not on standard output. *)
Definition on_stdout (ln : dump_line) : bool := match ln with LineErr _ => false | _ => true end.
Definition errors_in (l : list dump_line) : list read_error :=
  flat_map (fun ln => match ln with LineErr er => [er] | _ => [] end) l.

(** ** Columns *)

(** The word that begins in [s] at position [k], counted from 0: what stands
    there up to the next space, if there is a space or nothing in front of it. *)
Fixpoint first_word (s : string) : string :=
  match s with
  | "" => ""
  | String c t => if Ascii.eqb c space_char then "" else String c (first_word t)
  end.
Fixpoint behind (k : nat) (s : string) : string :=
  match k, s with
  | O, _ => s
  | S j, String _ t => behind j t
  | S _, "" => ""
  end.
Definition word_at (k : nat) (s : string) : string :=
  match k with
  | O => first_word s
  | S j => match behind j s with
           | String c t => if Ascii.eqb c space_char then first_word t else ""
           | "" => ""
           end
  end.
(** The second, third and fourth word of a row begin where the headings CFA, FP
    and RA begin. *)
Definition lined_up (heading row : string) : Prop :=
  forall i name, nth_error ["CFA"; "FP"; "RA"] i = Some name ->
  exists k w, word_at k heading = name /\ nth_error (words row) (S i) = Some w /\ word_at k row = w.
(** A number fits into its column. *)
Definition narrow (c : cell) : Prop :=
  match c with
  | CellUnknown => True
  | CellBase _ o => - 10 ^ 9 < o < 10 ^ 9
  | CellCfa o => - 10 ^ 8 < o < 10 ^ 8
  end.

(** ** What the messages of the builder say *)

(** The sentences, and what each claims of the refused row [r]. *)
Definition row_sentences : list (string * (fdb -> row -> Prop)) :=
  [("FRE start offset was larger than 0x10000000", fun b r => 0x10000000 < r_start r);
   ("FRE start offset was larger than the specified FDE repetition size",
    fun b r => exists rep, fb_rep_size b = Some rep /\ rep < r_start r);
   ("FRE start address outside of the address range of its FDE", fun b r => ~ (0 <= r_start r < fb_size b));
   ("FRE was missing a required offset for the return address",
    fun b r => exists o, r_offsets r = Some o /\ ro_ra o = None /\ so_fixed_ra (fb_options b) = None);
   ("FRE was missing a required offset for the frame pointer",
    fun b r => exists o, r_offsets r = Some o /\ ro_fp o = None /\ so_fixed_fp (fb_options b) = None);
   ("provided return address offset did not match the offset specified in the section header",
    fun b r => exists o x y, r_offsets r = Some o /\ ro_ra o = Some x /\ so_fixed_ra (fb_options b) = Some y /\ x <> y);
   ("provided function pointer offset did not match the one specified in the section header",
    fun b r => exists o x y, r_offsets r = Some o /\ ro_fp o = Some x /\ so_fixed_fp (fb_options b) = Some y /\ x <> y);
   ("FDE already contains a row with the same start address", fun b r => exists r', In r' (rows_of b) /\ r_start r' = r_start r)].
Fixpoint find_sentence {A} (text : string) (l : list (string * A)) : option A :=
  match l with
  | [] => None
  | (s, a) :: t => if String.eqb text s then Some a else find_sentence text t
  end.
(** The message [text] is true of the row [r] refused by the builder [b]. *)
Definition message_true (b : fdb) (r : row) (text : string) : Prop :=
  exists claim, find_sentence text row_sentences = Some claim /\ claim b r.

(** ** What the messages of the converter say *)

(** A number written in hexadecimal with its prefix. *)
Definition hex_word (w : string) : option Z :=
  match after "0x" w with Some d => number 16 d | None => None end.
(** The numbers that stand in [text] where the sentence [pat] has [#]. *)
Fixpoint fill (pat text : list string) : option (list Z) :=
  match pat, text with
  | [], [] => Some []
  | p :: pat', w :: text' =>
      if String.eqb p "#" then
        match hex_word w, fill pat' text' with
        | Some z, Some l => Some (z :: l)
        | _, _ => None
        end
      else if String.eqb p w then fill pat' text' else None
  | _, _ => None
  end.
Definition numbers_in (pat text : string) : option (list Z) := fill (words pat) (words text).

(** What gimli reports about the section: at the level of its entries, of one
    FDE, of one unwind table. *)
Definition entries_report (eh : eh_frame) (x : gimli_error) : Prop := ents_end (eh_entries eh) = Some x.
Definition fde_report (op : options) (eh : eh_frame) (x : gimli_error) : Prop :=
  In (DwBadFde x) (entries_of eh) \/
  (op_debugdump op = true /\ exists f, In f (functions (entries_of eh)) /\ df_dump f = Some x).
Definition table_report (eh : eh_frame) (x : gimli_error) : Prop :=
  exists f, In f (functions (entries_of eh)) /\
    (df_rows f = inr x \/ exists l, df_rows f = inl (DwRows l (Some x))).

(** The message [text] is true of the section; [g] says how gimli's errors
    read. *)
Definition conv_message_true (g : gimli_error -> string) (op : options) (eh : eh_frame) (text : string) : Prop :=
  (exists a m, numbers_in "DWARF FDE start address # larger than #" text = Some [a; m] /\
     exists f, In f (functions (entries_of eh)) /\ df_start f = a /\ m < a) \/
  (exists o m, numbers_in "DWARF FDE row offset # larger than #" text = Some [o; m] /\
     exists f r, In f (functions (entries_of eh)) /\ In r (dw_rows_of f) /\ off f r = o /\ m < o) \/
  (exists a n m, numbers_in "DWARF FDE for address # had length # larger than #" text = Some [a; n; m] /\
     exists f, In f (functions (entries_of eh)) /\ df_start f = a /\ df_len f = n /\ m < n) \/
  (exists x, text = "invalid .eh_frame entry: " ++ g x /\ entries_report eh x) \/
  (exists x, text = "invalid DWARF FDE: " ++ g x /\ fde_report op eh x) \/
  (exists x, text = "invalid DWARF unwind table: " ++ g x /\ table_report eh x).
