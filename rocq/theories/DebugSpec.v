(** Specification of debug output: how it is read.  Nothing here uses the
    printing functions of [Debug.v]; of that file only the tree type occurs. *)
From Coq Require Import String Ascii.
From Verif Require Export TextSpec Debug.
Local Open Scope string_scope.

(** ** Words and brackets *)

Inductive token : Type :=
| TWord (w : string)
| TMark (c : ascii).

Definition blank_char (c : ascii) : bool :=
  (Ascii.eqb c " " || Ascii.eqb c "," || Ascii.eqb c newline_char)%char%bool.
Definition bracket (c : ascii) : bool :=
  (Ascii.eqb c "{" || Ascii.eqb c "}" || Ascii.eqb c "(" || Ascii.eqb c ")" || Ascii.eqb c "[" || Ascii.eqb c "]")%char%bool.
Definition flush (cur : string) : list token := if String.eqb cur "" then [] else [TWord cur].
(** Spaces, commas and line breaks separate; [cur] is the word in front. *)
Fixpoint tokens_from (cur s : string) : list token :=
  match s with
  | "" => flush cur
  | String c t =>
      if blank_char c then (flush cur ++ tokens_from "" t)%list
      else if bracket c then (flush cur ++ TMark c :: tokens_from "" t)%list
      else tokens_from (cur ++ String c "") t
  end.
Definition tokens (s : string) : list token := tokens_from "" s.

(** ** Trees *)

(** A key is a word that ends in a colon. *)
Fixpoint key_of (w : string) : option string :=
  match w with
  | "" => None
  | String c t =>
      match t with
      | "" => if Ascii.eqb c ":" then Some "" else None
      | _ => option_map (String c) (key_of t)
      end
  end.

Fixpoint read_tree (n : nat) (l : list token) : option (dbg * list token) :=
  match n with
  | O => None
  | S k =>
      match l with
      | TMark c :: t =>
          if Ascii.eqb c "[" then
            match read_items k "]" t with Some (x, t') => Some (DList x, t') | None => None end
          else if Ascii.eqb c "{" then
            match read_fields k t with Some (x, t') => Some (DMap x, t') | None => None end
          else None
      | TWord w :: TMark c :: t =>
          if Ascii.eqb c "{" then
            match read_fields k t with Some (x, t') => Some (DStruct w x, t') | None => None end
          else if Ascii.eqb c "(" then
            match read_items k ")" t with Some (x, t') => Some (DTuple w x, t') | None => None end
          else Some (DLeaf w, TMark c :: t)
      | TWord w :: t => Some (DLeaf w, t)
      | [] => None
      end
  end
with read_items (n : nat) (close : ascii) (l : list token) : option (list dbg * list token) :=
  match n with
  | O => None
  | S k =>
      let more :=
        match read_tree k l with
        | Some (x, l') => match read_items k close l' with Some (y, l'') => Some (x :: y, l'') | None => None end
        | None => None
        end in
      match l with
      | TMark c :: t => if Ascii.eqb c close then Some ([], t) else more
      | _ => more
      end
  end
with read_fields (n : nat) (l : list token) : option (list (string * dbg) * list token) :=
  match n with
  | O => None
  | S k =>
      match l with
      | TMark c :: t => if Ascii.eqb c "}" then Some ([], t) else None
      | TWord w :: t =>
          match key_of w, read_tree k t with
          | Some key, Some (x, l') =>
              match read_fields k l' with Some (y, l'') => Some ((key, x) :: y, l'') | None => None end
          | _, _ => None
          end
      | [] => None
      end
  end.
Definition read_text (s : string) : option dbg :=
  match read_tree (2 * length (tokens s)) (tokens s) with
  | Some (t, []) => Some t
  | _ => None
  end.

(** ** Values *)

Definition leaf (t : dbg) : option string := match t with DLeaf s => Some s | _ => None end.
(** The values of the fields of a struct, given its name and keys. *)
Definition open_struct (name : string) (keys : list string) (t : dbg) : option (list dbg) :=
  match t with
  | DStruct n fs =>
      if (String.eqb n name && if list_eq_dec string_dec (map fst fs) keys then true else false)%bool
      then Some (map snd fs) else None
  | _ => None
  end.
Definition open_tuple (name : string) (t : dbg) : option dbg :=
  match t with DTuple n [x] => if String.eqb n name then Some x else None | _ => None end.
Fixpoint all_some {A} (l : list (option A)) : option (list A) :=
  match l with
  | [] => Some []
  | Some x :: t => option_map (cons x) (all_some t)
  | None :: _ => None
  end.
Definition read_list {A} (r : dbg -> option A) (t : dbg) : option (list A) :=
  match t with DList l => all_some (map r l) | _ => None end.
(** Choose by name. *)
Definition read_name {A} (l : list (string * A)) (t : dbg) : option A :=
  match leaf t with Some s => find_sentence s l | None => None end.

Definition read_int (t : dbg) : option Z := match leaf t with Some s => integer s | None => None end.
Definition read_hex32 (t : dbg) : option Z :=
  match leaf t with Some s => option_map signed32 (hex_word s) | None => None end.
Definition read_opt {A} (r : dbg -> option A) (t : dbg) : option (option A) :=
  match leaf t with
  | Some s => if String.eqb s "None" then Some None else None
  | None => match open_tuple "Some" t with Some x => option_map Some (r x) | None => None end
  end.
Definition read_bool : dbg -> option bool := read_name [("true", true); ("false", false)].
(** Is the base the stack pointer, is the key B, does the function repeat. *)
Definition read_base : dbg -> option bool := read_name [("Fp", false); ("Sp", true)].
Definition read_key : dbg -> option pauth := read_name [("A", KeyA); ("B", KeyB)].
Definition read_kind : dbg -> option fde_type := read_name [("PcInc", PcInc); ("PcMask", PcMask)].
Definition read_fre_type : dbg -> option fre_type :=
  read_name [("Addr1", Addr1); ("Addr2", Addr2); ("Addr4", Addr4); ("_Reserved3", FtReserved3); ("_Reserved4", FtReserved4);
             ("_Reserved5", FtReserved5); ("_Reserved6", FtReserved6); ("_Reserved7", FtReserved7)].
Definition read_offset_type : dbg -> option fre_offset :=
  read_name [("_1B", Off1B); ("_2B", Off2B); ("_4B", Off4B); ("_Reserved3", OffReserved3)].

Definition or_else {A} (x y : option A) : option A := match x with Some _ => x | None => y end.
Definition under {A B} (name : string) (r : dbg -> option A) (f : A -> B) (t : dbg) : option B :=
  match open_tuple name t with Some x => option_map f (r x) | None => None end.
Definition read_error_of (t : dbg) : option read_error :=
  or_else (read_name [("UnexpectedEof", UnexpectedEof); ("IncorrectEndian", IncorrectEndian);
                      ("InvalidFdeRepBlockSize", InvalidFdeRepBlockSize); ("MissingFreOffset", MissingFreOffset)] t)
 (or_else (under "UnsupportedVersion" read_int UnsupportedVersion t)
 (or_else (under "UnsupportedFdeType" read_kind UnsupportedFdeType t)
 (or_else (under "UnsupportedFreType" read_fre_type UnsupportedFreType t)
 (or_else (under "UnsupportedFreOffset" read_offset_type UnsupportedFreOffset t)
          (under "InvalidFreOffsetCount" read_int InvalidFreOffsetCount t))))).

(** ** What is shown *)

Definition read_row_of (t : dbg) : option spec_row :=
  match open_struct "FrameRowEntry" ["start_address"; "cfa_base_reg_id"; "mangled_ra_p"; "offsets"] t with
  | Some [a; b; m; o] =>
      match read_int a, read_base b, read_bool m, read_list read_int o with
      | Some a, Some b, Some m, Some o => Some (SpecRow a b m o)
      | _, _, _, _ => None
      end
  | _ => None
  end.
Definition read_item_of (t : dbg) : option (spec_row + read_error) :=
  or_else (under "Ok" read_row_of inl t) (under "Err" read_error_of inr t).

Record fde_seen : Type := FdeSeen {
  fs_start : Z; fs_size : Z; fs_kind : fde_type; fs_key : pauth; fs_rep : option Z;
  fs_num_fres : Z; fs_fre_off : Z; fs_rows : list (spec_row + read_error) }.
Definition read_fde_of (t : dbg) : option fde_seen :=
  let fde a n k p rep c o rows :=
    match read_hex32 a, read_int n, read_kind k, read_key p, read_int c, read_int o, read_list read_item_of rows with
    | Some a, Some n, Some k, Some p, Some c, Some o, Some rows => Some (FdeSeen a n k p rep c o rows)
    | _, _, _, _, _, _, _ => None
    end in
  match open_struct "FuncDescEntry" ["start_address"; "size"; "fdetype"; "pauth_key"; "num_fres"; "start_fre_off"; "fres"] t with
  | Some [a; n; k; p; c; o; rows] => fde a n k p None c o rows
  | _ =>
      match open_struct "FuncDescEntry" ["start_address"; "size"; "fdetype"; "pauth_key"; "rep_size"; "num_fres"; "start_fre_off"; "fres"] t with
      | Some [a; n; k; p; r; c; o; rows] =>
          match read_int r with Some r => fde a n k p (Some r) c o rows | None => None end
      | _ => None
      end
  end.

(** What other crates print is left as it is. *)
Record section_seen : Type := SectionSeen {
  ss_magic : dbg; ss_version : dbg; ss_flags : Z; ss_abi : dbg; ss_fp : option Z; ss_ra : option Z;
  ss_num_fdes : Z; ss_num_fres : Z; ss_fdes : list fde_seen }.
Definition read_section_of (t : dbg) : option section_seen :=
  match open_struct "SFrame" ["preamble"; "abi_arch"; "fixed_fp_offset"; "fixed_ra_offset"; "num_fdes"; "num_fres"; "fdes"] t with
  | Some [p; a; fp; ra; nd; nr; l] =>
      match open_struct "Preamble" ["magic"; "version"; "flags"] p with
      | Some [m; v; fl] =>
          match under "Flags" read_int (fun x => x) fl, read_opt read_int fp, read_opt read_int ra, read_int nd, read_int nr,
                read_list read_fde_of l with
          | Some fl, Some fp, Some ra, Some nd, Some nr, Some l => Some (SectionSeen m v fl a fp ra nd nr l)
          | _, _, _, _, _, _ => None
          end
      | _ => None
      end
  | _ => None
  end.
(** Read the debug output of a section. *)
Definition read_debug (s : string) : option section_seen :=
  match read_text s with Some t => read_section_of t | None => None end.

(** [FreInfo]. *)
Definition read_info_of (t : dbg) : option (bool * Z * fre_offset * bool) :=
  match open_struct "FreInfo" ["cfa_base_reg_id"; "offset_count"; "offset_size"; "mangled_ra_p"] t with
  | Some [b; c; s; m] =>
      match read_base b, read_int c, read_offset_type s, read_bool m with
      | Some b, Some c, Some s, Some m => Some (b, c, s, m)
      | _, _, _, _ => None
      end
  | _ => None
  end.

(** ** What there is to see *)

Definition item_seen (x : fre_item) : spec_row + read_error :=
  match x with inl fr => inl (view_fre fr) | inr er => inr er end.
(** A function and its rows, by the accessors. *)
Definition fde_is_seen (md : mode) (e : endian) (en : entry) (s : fde_seen) : Prop :=
  fs_start s = en_start_address en /\ fs_size s = en_size en /\
  (fs_kind s = PcInc <-> en_fdetype en = PPcInc) /\
  fs_key s = en_pauth_key en /\ fs_rep s = en_rep_block_size en /\
  fs_num_fres s = fde_num_fres (en_fde en) /\ fs_fre_off s = fde_start_fre_off (en_fde en) /\
  exists l, all_fres md e en = Ok l /\ fs_rows s = map item_seen l.
Definition is_seen (dt : debug_texts) (md : mode) (e : endian) (sf : sframe) (s : section_seen) : Prop :=
  ss_magic s = dt_u16 dt spec_magic /\ ss_version s = dt_version dt (version sf) /\ ss_flags s = flags sf /\
  ss_abi s = dt_abi dt (abi sf) /\ ss_fp s = fixed_fp_offset sf /\ ss_ra s = fixed_ra_offset sf /\
  ss_num_fdes s = num_fdes sf /\ ss_num_fres s = num_fres sf /\
  Forall2 (fde_is_seen md e) (all_fdes sf) (ss_fdes s).

(** ** What other crates print is a tree of words *)

Definition word_char (c : ascii) : bool := negb (blank_char c || bracket c).
Definition is_word (s : string) : Prop := s <> "" /\ forall c, word_char c = false -> without c s.
Inductive wordy : dbg -> Prop :=
| wy_leaf s : is_word s -> wordy (DLeaf s)
| wy_struct n fs : is_word n -> fs <> [] -> Forall (fun kv => is_word (fst kv) /\ wordy (snd kv)) fs -> wordy (DStruct n fs)
| wy_tuple n l : is_word n -> l <> [] -> Forall wordy l -> wordy (DTuple n l)
| wy_list l : Forall wordy l -> wordy (DList l).
Definition plain_texts (dt : debug_texts) : Prop :=
  (forall z, wordy (dt_u16 dt z)) /\ (forall z, wordy (dt_version dt z)) /\ (forall z, wordy (dt_abi dt z)).

(** ** Comparing two sections *)

(** The two searches find the same function: one at the same place. *)
Definition same_place (sf sf' : sframe) (r r' : outcome fuel_error (option entry)) : Prop :=
  match r, r' with
  | Ok None, Ok None | Panic, Panic => True
  | Ok (Some en), Ok (Some en') =>
      exists i f f', nth_error (all_fdes sf) i = Some f /\ nth_error (all_fdes sf') i = Some f' /\
        en_fde en = en_fde f /\ en_fde en' = en_fde f'
  | _, _ => False
  end.
(** What the caller sees of the row found. *)
Definition row_found (r : outcome (fuel_error + read_error) (option fre)) : outcome (fuel_error + read_error) (option spec_row) :=
  match r with Ok o => Ok (option_map view_fre o) | Err er => Err er | Panic => Panic end.
Definition sorted_flag (sf : sframe) : Prop := Z.testbit (flags sf) 0 = true.
