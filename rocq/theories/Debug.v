(** The [Debug] implementations of the reader, and the parts of Rust's debug
    builders (core/src/fmt/builders.rs) that they use.

    A [Debug] implementation is modelled as the tree of builder calls it makes;
    [compact] and [pretty] are what the builders print for [{:?}] and [{:#?}]. *)
From Coq Require Import String Ascii.
From Verif Require Import Base Raw Read Text.
Local Open Scope string_scope.

(** ** The builders *)

(** A plain piece of text, [debug_struct], [debug_tuple], [debug_list],
    [debug_map]. *)
Inductive dbg : Type :=
| DLeaf (text : string)
| DStruct (name : string) (fields : list (string * dbg))
| DTuple (name : string) (args : list dbg)
| DList (items : list dbg)
| DMap (entries : list (string * dbg)).

Fixpoint join (sep : string) (l : list string) : string :=
  match l with
  | [] => ""
  | [x] => x
  | x :: t => x ++ sep ++ join sep t
  end.

(** [{:?}]: builders.rs, [DebugStruct::field] and [finish], [DebugTuple],
    [DebugInner::entry], [DebugMap::key] and [value]. *)
Fixpoint compact (t : dbg) : string :=
  match t with
  | DLeaf s => s
  | DStruct n [] => n
  | DStruct n fs => n ++ " { " ++ join ", " (map (fun kv => fst kv ++ ": " ++ compact (snd kv)) fs) ++ " }"
  | DTuple n [] => n
  | DTuple n l => n ++ "(" ++ join ", " (map compact l) ++ ")"
  | DList l => "[" ++ join ", " (map compact l) ++ "]"
  | DMap l => "{" ++ join ", " (map (fun kv => fst kv ++ ": " ++ compact (snd kv)) l) ++ "}"
  end.

(** [PadAdapter]: four spaces in front of every line. *)
Fixpoint indent_from (on_newline : bool) (s : string) : string :=
  match s with
  | "" => ""
  | String c t => (if on_newline then "    " else "") ++ String c (indent_from (Ascii.eqb c (ascii_of_nat 10)) t)
  end.
Definition indent (s : string) : string := indent_from true s.

Definition concat_text (l : list string) : string := List.fold_right append "" l.

(** [{:#?}] *)
Fixpoint pretty (t : dbg) : string :=
  match t with
  | DLeaf s => s
  | DStruct n [] => n
  | DStruct n fs => n ++ " {" ++ newline ++
      concat_text (map (fun kv => indent (fst kv ++ ": " ++ pretty (snd kv) ++ "," ++ newline)) fs) ++ "}"
  | DTuple n [] => n
  | DTuple n l => n ++ "(" ++ newline ++ concat_text (map (fun x => indent (pretty x ++ "," ++ newline)) l) ++ ")"
  | DList [] => "[]"
  | DList l => "[" ++ newline ++ concat_text (map (fun x => indent (pretty x ++ "," ++ newline)) l) ++ "]"
  | DMap [] => "{}"
  | DMap l => "{" ++ newline ++
      concat_text (map (fun kv => indent (fst kv ++ ": " ++ pretty (snd kv) ++ "," ++ newline)) l) ++ "}"
  end.

(** ** Values *)

(** [Debug] of other crates: [U16] (zerocopy), [Version] and [Abi] (c_enum). *)
Record debug_texts : Type := DebugTexts {
  dt_u16 : Z -> dbg;
  dt_version : Z -> dbg;
  dt_abi : Z -> dbg }.

Definition int_debug (z : Z) : dbg := DLeaf (fmt_dec z).
Definition bool_debug (b : bool) : dbg := DLeaf (if b then "true" else "false").
Definition option_debug {A} (d : A -> dbg) (o : option A) : dbg :=
  match o with None => DLeaf "None" | Some x => DTuple "Some" [d x] end.
Definition result_debug {A E} (d : A -> dbg) (d' : E -> dbg) (x : A + E) : dbg :=
  match x with inl a => DTuple "Ok" [d a] | inr er => DTuple "Err" [d' er] end.

(** The derived implementations, raw/v2.rs:158, 166, 190, 301, 312. *)
Definition pauth_debug (k : pauth) : dbg := DLeaf (match k with KeyA => "A" | KeyB => "B" end).
Definition fde_type_debug (t : fde_type) : dbg := DLeaf (match t with PcInc => "PcInc" | PcMask => "PcMask" end).
Definition fre_type_debug (t : fre_type) : dbg :=
  DLeaf (match t with
         | Addr1 => "Addr1" | Addr2 => "Addr2" | Addr4 => "Addr4" | FtReserved3 => "_Reserved3" | FtReserved4 => "_Reserved4"
         | FtReserved5 => "_Reserved5" | FtReserved6 => "_Reserved6" | FtReserved7 => "_Reserved7"
         end).
Definition fre_offset_debug (o : fre_offset) : dbg :=
  DLeaf (match o with Off1B => "_1B" | Off2B => "_2B" | Off4B => "_4B" | OffReserved3 => "_Reserved3" end).
Definition base_reg_debug (b : base_reg) : dbg := DLeaf (match b with Fp => "Fp" | Sp => "Sp" end).

(** [ReadError], error.rs:7. *)
Definition read_error_debug (er : read_error) : dbg :=
  match er with
  | UnsupportedVersion v => DTuple "UnsupportedVersion" [int_debug v]
  | UnsupportedFdeType t => DTuple "UnsupportedFdeType" [fde_type_debug t]
  | UnsupportedFreType t => DTuple "UnsupportedFreType" [fre_type_debug t]
  | UnsupportedFreOffset o => DTuple "UnsupportedFreOffset" [fre_offset_debug o]
  | UnexpectedEof => DLeaf "UnexpectedEof"
  | IncorrectEndian => DLeaf "IncorrectEndian"
  | InvalidFreOffsetCount c => DTuple "InvalidFreOffsetCount" [int_debug c]
  | InvalidFdeRepBlockSize => DLeaf "InvalidFdeRepBlockSize"
  | MissingFreOffset => DLeaf "MissingFreOffset"
  end.

(** [Debug for FreInfo], raw/v2.rs:288-297. *)
Definition fre_info_debug (i : Z) : dbg :=
  DStruct "FreInfo"
    [("cfa_base_reg_id", base_reg_debug (cfa_base_reg_id i));
     ("offset_count", int_debug (offset_count i));
     ("offset_size", fre_offset_debug (offset_size i));
     ("mangled_ra_p", bool_debug (mangled_ra_p i))].

(** [Debug for FrameRowEntry], read.rs:695-705. *)
Definition fre_debug (fr : fre) : dbg :=
  DStruct "FrameRowEntry"
    [("start_address", int_debug (fr_start fr));
     ("cfa_base_reg_id", base_reg_debug (cfa_base_reg_id (fr_info fr)));
     ("mangled_ra_p", bool_debug (fre_mangled_ra_p fr));
     ("offsets", DList (map int_debug (firstn (Z.to_nat (Z.min (offset_count (fr_info fr)) 3)) (fr_offsets fr))))].

(** [Debug for FuncDescEntry], read.rs:453-495.  A panic of the row iterator is
    a panic of the formatting. *)
Definition entry_debug (md : mode) (e : endian) (en : entry) : outcome fuel_error dbg :=
  let* rows := all_fres md e en in
  let f := en_fde en in
  Ok (DStruct "FuncDescEntry"
       ([("start_address", DLeaf (fmt_hex_alt 32 (fde_start_address f)));
         ("size", int_debug (fde_size f));
         ("fdetype", fde_type_debug (fdetype (fde_info f)));
         ("pauth_key", pauth_debug (pauth_key (fde_info f)))]
        ++ match f with FdeV1 _ => [] | FdeV2 r => [("rep_size", int_debug (f2_rep_size r))] end
        ++ [("num_fres", int_debug (fde_num_fres f));
            ("start_fre_off", int_debug (fde_start_fre_off f));
            ("fres", DList (map (result_debug fre_debug read_error_debug) rows))])%list).

Fixpoint entries_debug (md : mode) (e : endian) (l : list entry) : outcome fuel_error (list dbg) :=
  match l with
  | [] => Ok []
  | en :: t =>
      let* x := entry_debug md e en in
      let* y := entries_debug md e t in
      Ok (x :: y)
  end.

(** The derived [Debug for Preamble] and [Flags], raw/mod.rs:15, 58. *)
Definition preamble_debug (dt : debug_texts) (p : preamble) : dbg :=
  DStruct "Preamble"
    [("magic", dt_u16 dt (pre_magic p));
     ("version", dt_version dt (pre_version p));
     ("flags", DTuple "Flags" [int_debug (pre_flags p)])].

(** [Debug for SFrame], read.rs:217-236. *)
Definition section_debug (dt : debug_texts) (md : mode) (e : endian) (sf : sframe) : outcome fuel_error dbg :=
  let* l := entries_debug md e (all_fdes sf) in
  Ok (DStruct "SFrame"
    [("preamble", preamble_debug dt (sf_preamble sf));
     ("abi_arch", dt_abi dt (sf_abi_arch sf));
     ("fixed_fp_offset", option_debug int_debug (fixed_fp_offset sf));
     ("fixed_ra_offset", option_debug int_debug (fixed_ra_offset sf));
     ("num_fdes", int_debug (sf_num_fdes sf));
     ("num_fres", int_debug (sf_num_fres sf));
     ("fdes", DList l)]).

(** [format!("{:?}", sf)] and [format!("{:#?}", sf)]. *)
Definition print_debug (alternate : bool) (t : dbg) : string := if alternate then pretty t else compact t.
Definition section_text (alternate : bool) (dt : debug_texts) (md : mode) (e : endian) (sf : sframe)
  : outcome fuel_error string :=
  let* t := section_debug dt md e sf in
  Ok (print_debug alternate t).
