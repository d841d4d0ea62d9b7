(** Specification of what [dwarfdump] prints: how a person reads it.  Nothing here
    uses the formatting functions of [Text.v], [Loud.v] and [Dwarfdump.v]. *)
From Coq Require Import String Ascii.
From Verif Require Export V1Spec Dwarfdump.
Local Open Scope string_scope.

(** ** Views *)

Record cie_view : Type := CieView {
  cv_offset : Z;
  cv_length : Z;
  cv_version : Z;
  cv_code_align : Z;
  cv_data_align : Z;
  cv_ra : string;
  cv_lsda : option (string * string);
  cv_personality : option (string * string * pointer);
  cv_fde : option (string * string);
  cv_insns : list insn_view;
  cv_broken : option string }.
Record ddf_view : Type := DdfView {
  gv_start : Z;
  gv_len : Z;
  gv_end : Z;
  gv_lsda : option pointer;
  gv_insns : list insn_view;
  gv_broken : option string }.
Inductive dd_view : Type :=
| ViewCie (v : cie_view)
| ViewFde (offset length cie_offset : Z) (parsed : ddf_view + string).

(** ** Reading *)

Definition read_hex (p s : string) : option Z := match after p s with Some n => number 16 n | None => None end.
Definition read_dec (p s : string) : option Z := match after p s with Some n => integer n | None => None end.
(** [0x0000000000401000], in parentheses if it is the address of the pointer. *)
Definition read_pointer (s : string) : option pointer :=
  match after "(0x" s with
  | Some t => match drop_end ")" t with Some n => option_map Indirect (number 16 n) | None => None end
  | None => option_map Direct (read_hex "0x" s)
  end.
(** A line that may be missing. *)
Definition optional (p : string) (l : list string) : option string * list string :=
  match l with
  | x :: t => match after p x with Some s => (Some s, t) | None => (None, l) end
  | [] => (None, [])
  end.
(** [f] of what is there. *)
Definition when {A B} (f : A -> option B) (o : option A) : option (option B) :=
  match o with Some a => option_map Some (f a) | None => Some None end.
(** [DW_EH_PE_pcrel/DW_EH_PE_sdata4] *)
Definition read_encoding (s : string) : option (string * string) := upto "/" s.
Definition read_personality (s : string) : option (string * string * pointer) :=
  match upto_last " " s with
  | Some (e, q) =>
      match read_encoding e, read_pointer q with
      | Some e, Some q => Some (e, q)
      | _, _ => None
      end
  | None => None
  end.

(** The instructions of a CIE, with a line behind them. *)
Definition read_initial (l : list string) : option (list insn_view * option string) :=
  match rev l with
  | x :: t =>
      if String.eqb x "  Instructions: Init State:" then
        match read_insns (rev t) with ([], is, None) => Some (is, None) | _ => None end
      else
        match read_insns l with ([], is, Some b) => Some (is, Some b) | _ => None end
  | [] => None
  end.

Definition read_cie (offset length : Z) (l : list string) : option (cie_view * list string) :=
  match l with
  | v :: ca :: da :: ra :: l =>
      match read_hex "       version: 0x" v, read_dec "    code_align: " ca, read_dec "    data_align: " da,
            after "   ra_register: " ra with
      | Some v, Some ca, Some da, Some ra =>
          let (lsda, l) := optional " lsda_encoding: " l in
          let (personality, l) := optional "   personality: " l in
          let (fde, l) := optional "  fde_encoding: " l in
          match when read_encoding lsda, when read_personality personality, when read_encoding fde, paragraph l with
          | Some lsda, Some personality, Some fde, Some (body, rest) =>
              match read_initial body with
              | Some (is, broken) => Some (CieView offset length v ca da ra lsda personality fde is broken, rest)
              | None => None
              end
          | _, _, _, _ => None
          end
      | _, _, _, _ => None
      end
  | _ => None
  end.

Definition read_fde (l : list string) : option (Z * (ddf_view + string) * list string) :=
  match l with
  | ci :: x :: l =>
      match read_hex "   CIE_pointer: 0x" ci with
      | None => None
      | Some ci =>
          match after "Failed to parse FDE: " x with
          | Some m => Some (ci, inr m, l)
          | None =>
              match l with
              | r :: l =>
                  match read_hex "    start_addr: 0x" x, enclosed "    range_size: 0x" " " r with
                  | Some start, Some (len, e) =>
                      let (lsda, l) := optional "          lsda: " l in
                      match enclosed "(end_addr = 0x" ")" e, when read_pointer lsda, l with
                      | Some (e, ""), Some lsda, heading :: l =>
                          if String.eqb heading "  Instructions:" then
                            match paragraph l with
                            | Some (body, rest) =>
                                match read_insns body with
                                | ([], is, broken) => Some (ci, inl (DdfView start len e lsda is broken), rest)
                                | _ => None
                                end
                            | None => None
                            end
                          else None
                      | _, _, _ => None
                      end
                  | _, _ => None
                  end
              | [] => None
              end
          end
      end
  | _ => None
  end.

(** An entry stands behind an empty line. *)
Definition read_entry (l : list string) : option (dd_view * list string) :=
  match l with
  | "" :: head :: n :: l =>
      match enclosed "0x" ":" head, read_hex "        length: 0x" n with
      | Some (o, kind), Some n =>
          if String.eqb kind " CIE" then
            match read_cie o n l with Some (v, rest) => Some (ViewCie v, rest) | None => None end
          else if String.eqb kind " FDE" then
            match read_fde l with Some (ci, v, rest) => Some (ViewFde o n ci v, rest) | None => None end
          else None
      | _, _ => None
      end
  | _ => None
  end.
Fixpoint read_entries (n : nat) (l : list string) : option (list dd_view) :=
  match l, n with
  | [], _ => Some []
  | _, O => None
  | _, S n =>
      match read_entry l with
      | Some (v, rest) => option_map (cons v) (read_entries n rest)
      | None => None
      end
  end.
Definition read_dwarfdump (l : list string) : option (list dd_view) := read_entries (Datatypes.length l) l.

(** ** What the views say *)

(** Bits 4 to 6 of an encoding say to what it is relative, bits 0 to 3 are the
    format. *)
Definition encoding_shown (p : printers_dd) (e : Z) (v : string * string) : Prop :=
  fst v = pr_pe p (16 * (e / 16 mod 8)) /\ snd v = pr_pe p (e mod 16).
Definition option_shown {A B} (R : A -> B -> Prop) (a : option A) (b : option B) : Prop :=
  match a, b with Some a, Some b => R a b | None, None => True | _, _ => False end.
(** Instructions, with the operations of their expressions below them. *)
Definition insns_shown (pr : printers) (t : option reg_table) (is : insns) (l : list insn_view) (broken : option string) : Prop :=
  Forall2 (insn_spelled pr t true) (is_list is) l /\
  broken = option_map (pr_gimli pr) (is_end is).
Definition cie_shown_by (enc : Z -> string * string -> Prop) (p : printers_dd) (t : option reg_table) (c : cie) (v : cie_view) : Prop :=
  cv_offset v = ci_offset c /\ cv_length v = ci_length c /\ cv_version v = ci_version c /\
  cv_code_align v = ci_code_align c /\ cv_data_align v = ci_data_align c /\
  register_shown (pd p) t (ci_ra c) (cv_ra v) /\
  option_shown enc (ci_lsda c) (cv_lsda v) /\
  option_shown (fun e v => enc (fst e) (fst v) /\ snd v = snd e) (ci_personality c) (cv_personality v) /\
  option_shown enc (ci_fde c) (cv_fde v) /\
  insns_shown (pd p) t (ci_insns c) (cv_insns v) (cv_broken v).
(** The end is counted like addresses are. *)
Definition dd_fde_shown (p : printers_dd) (t : option reg_table) (f : dd_fde) (v : ddf_view) : Prop :=
  gv_start v = dd_start f /\ gv_len v = dd_len f /\ gv_end v = (dd_start f + dd_len f) mod 2 ^ 64 /\
  gv_lsda v = dd_lsda f /\ insns_shown (pd p) t (dd_insns f) (gv_insns v) (gv_broken v).
Definition entry_shown_by (enc : Z -> string * string -> Prop) (p : printers_dd) (t : option reg_table) (e : dd_entry) (v : dd_view) : Prop :=
  match e, v with
  | DdCie c, ViewCie v => cie_shown_by enc p t c v
  | DdPartial o n ci (inl f), ViewFde o' n' ci' (inl v) => o' = o /\ n' = n /\ ci' = ci /\ dd_fde_shown p t f v
  | DdPartial o n ci (inr g), ViewFde o' n' ci' (inr m) => o' = o /\ n' = n /\ ci' = ci /\ m = pr_gimli (pd p) g
  | _, _ => False
  end.
Definition entry_shown (p : printers_dd) (t : option reg_table) (e : dd_entry) (v : dd_view) : Prop :=
  entry_shown_by (encoding_shown p) p t e v.

(** ** Types *)

Definition pointer_typed (q : pointer) : Prop := match q with Direct a | Indirect a => in_u64 a end.
Definition on {A} (P : A -> Prop) (o : option A) : Prop := match o with Some a => P a | None => True end.
Definition byte_typed (e : Z) : Prop := 0 <= e < 256.
Definition cie_typed (c : cie) : Prop :=
  in_u64 (ci_offset c) /\ in_u64 (ci_length c) /\ byte_typed (ci_version c) /\ 0 <= ci_ra c < 2 ^ 16 /\
  on byte_typed (ci_lsda c) /\ on (fun e => byte_typed (fst e) /\ pointer_typed (snd e)) (ci_personality c) /\
  on byte_typed (ci_fde c) /\ Forall insn_typed (is_list (ci_insns c)).
Definition dd_fde_typed (f : dd_fde) : Prop :=
  in_u64 (dd_start f) /\ in_u64 (dd_len f) /\ on pointer_typed (dd_lsda f) /\ Forall insn_typed (is_list (dd_insns f)).
Definition dd_typed (e : dd_entry) : Prop :=
  match e with
  | DdCie c => cie_typed c
  | DdPartial o n ci f => in_u64 o /\ in_u64 n /\ in_u64 ci /\ match f with inl f => dd_fde_typed f | inr _ => True end
  end.
(** What the text of encodings must not look like. *)
Definition pe_plain (p : printers_dd) : Prop := forall e, without "/" (pr_pe p e).

(** Different bases and different formats have different names. *)
Definition pe_apart (p : printers_dd) : Prop :=
  (forall a b, 0 <= a < 8 -> 0 <= b < 8 -> pr_pe p (16 * a) = pr_pe p (16 * b) -> a = b) /\
  (forall a b, 0 <= a < 16 -> 0 <= b < 16 -> pr_pe p a = pr_pe p b -> a = b).

(** ** Complete dumps *)

Definition insns_fine (is : insns) : Prop :=
  forall i x, In i (is_list is) -> block_of i = Some x -> well_formed x = true.
(** The expressions of the entry can be decoded. *)
Definition decodable (e : dd_entry) : Prop :=
  match e with
  | DdCie c => insns_fine (ci_insns c)
  | DdPartial _ _ _ (inl f) => insns_fine (dd_insns f)
  | DdPartial _ _ _ (inr _) => True
  end.
(** The end of the range is not an address, and the addition is checked. *)
Definition past_end (md : mode) (e : dd_entry) : Prop :=
  match e with
  | DdPartial _ _ _ (inl f) => 2 ^ 64 <= dd_start f + dd_len f /\ overflow_checks md = true
  | _ => False
  end.
(** The entry can be shown. *)
Definition printable (md : mode) (e : dd_entry) : Prop := decodable e /\ ~ past_end md e.
Definition dd_arch (file : dd_file) : elf_arch := elf_architecture (dd_elf file).
(** The contents of [.eh_frame]; nothing if there is no such section. *)
Definition dd_entries_of (md : mode) (file : dd_file) : option dd_entries :=
  match section_by_name ".eh_frame" (elf_sections (dd_elf file)) with
  | None => Some (DdEntries [] None)
  | Some _ =>
      match dd_parse file with
      | Some parse => Some (parse (dwarfdump_setup md (elf_architecture (dd_elf file)) (elf_sections (dd_elf file))))
      | None => None
      end
  end.
Definition dd_file_typed (md : mode) (file : dd_file) : Prop :=
  forall ents, dd_entries_of md file = Some ents -> Forall dd_typed (dde_list ents).

(** ** Telling entries apart *)

(** Encodings but for the highest bit. *)
Definition same_encoding (e e' : Z) : Prop := e mod 128 = e' mod 128.
Definition cie_same_by (same : Z -> Z -> Prop) (pr : printers) (c c' : cie) : Prop :=
  ci_offset c = ci_offset c' /\ ci_length c = ci_length c' /\ ci_version c = ci_version c' /\
  ci_code_align c = ci_code_align c' /\ ci_data_align c = ci_data_align c' /\ ci_ra c = ci_ra c' /\
  option_shown same (ci_lsda c) (ci_lsda c') /\
  option_shown (fun e e' => same (fst e) (fst e') /\ snd e = snd e') (ci_personality c) (ci_personality c') /\
  option_shown same (ci_fde c) (ci_fde c') /\ insns_same pr (ci_insns c) (ci_insns c').
Definition dd_same_by (same : Z -> Z -> Prop) (pr : printers) (e e' : dd_entry) : Prop :=
  match e, e' with
  | DdCie c, DdCie c' => cie_same_by same pr c c'
  | DdPartial o n ci (inl f), DdPartial o' n' ci' (inl f') =>
      o = o' /\ n = n' /\ ci = ci' /\ dd_start f = dd_start f' /\ dd_len f = dd_len f' /\ dd_lsda f = dd_lsda f' /\
      insns_same pr (dd_insns f) (dd_insns f')
  | DdPartial o n ci (inr g), DdPartial o' n' ci' (inr g') => o = o' /\ n = n' /\ ci = ci' /\ pr_gimli pr g = pr_gimli pr g'
  | _, _ => False
  end.
Definition dd_same (pr : printers) (e e' : dd_entry) : Prop := dd_same_by same_encoding pr e e'.
