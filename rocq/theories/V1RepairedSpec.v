(** What the repaired first-generation converter of V1Repaired.v is meant to do. *)
From Coq Require Import String Ascii.
From Verif Require Export V1Spec ToolsSpec ConvRepairedSpec V1Repaired.
Local Open Scope string_scope.

(** All repairs of the conversion itself. *)
Record repairs_rows (fx : v1fixes) : Prop := RepairsRows {
  rr_skip : v1_skip fx = true; rr_rbp : v1_rbp fx = true; rr_print : v1_print fx = true; rr_refuse : v1_refuse fx = true;
  rr_listing : v1_listing fx = true; rr_end : v1_end fx = true; rr_stack : v1_stack fx = true; rr_column : v1_column fx = true }.
(** The three that are needed to convert what the second converter converts. *)
Record repairs_stops (fx : v1fixes) : Prop := RepairsStops {
  rs_skip : v1_skip fx = true; rs_print : v1_print fx = true; rs_listing : v1_listing fx = true;
  rs_rbp : v1_rbp fx = false; rs_refuse : v1_refuse fx = false; rs_end : v1_end fx = false;
  rs_stack : v1_stack fx = false; rs_column : v1_column fx = false }.

(** Nothing is at fault. *)
Definition v1_faultless (c : dw_fde -> Z) (ents : dw_entries) : Prop :=
  Forall (entry_faultless Amd64 None c) (ents_list ents) /\ ents_end ents = None.

(** ** Reports *)

(** Rules: an expression that cannot be decoded is said to be such. *)
Definition rule_shown_or (p : printers1) (t : option reg_table) (rule : reg_rule) (s : string) : Prop :=
  match rule with
  | RExpression x => if well_formed x then expression_shown (p1 p) t x s else s = "<cannot be decoded>"
  | _ => rule_shown (p1 p) t rule s
  end.

Inductive v1_reason' : Type :=
| V1As (why : v1_reason)
| V1RbpRule (rule : string)
| V1RspRule (rule : string)
| V1ReturnRegister (name : string).
Definition read_v1_reason' (s : string) : option v1_reason' :=
  match after "unsupported recovery rule for RBP: " s with
  | Some u => Some (V1RbpRule u)
  | None =>
  match after "unsupported recovery rule for RSP: " s with
  | Some u => Some (V1RspRule u)
  | None =>
  match after "unsupported return address register " s with
  | Some u => Some (V1ReturnRegister u)
  | None => option_map V1As (read_v1_reason s)
  end end end.
Definition v1_reason_holds' (p : printers1) (m : elf_arch) (column : Z) (r : dw_row) (why : v1_reason') : Prop :=
  match why with
  | V1As (V1RaRule s) => (forall o, dr_register r (reg_ra Amd64) <> ROffset o) /\
      rule_shown_or p (rule_table m) (dr_register r (reg_ra Amd64)) s
  | V1As why => v1_reason_holds p m r why
  | V1RbpRule s =>
      dr_register r (reg_fp Amd64) <> RUndefined /\ dr_register r (reg_fp Amd64) <> RSameValue /\
      (forall o, dr_register r (reg_fp Amd64) <> ROffset o) /\
      rule_shown_or p (rule_table m) (dr_register r (reg_fp Amd64)) s
  | V1RspRule s =>
      dr_register r (reg_sp Amd64) <> RUndefined /\ dr_register r (reg_sp Amd64) <> RValOffset 0 /\
      rule_shown_or p (rule_table m) (dr_register r (reg_sp Amd64)) s
  | V1ReturnRegister n => column <> reg_ra Amd64 /\ register_shown (p1 p) (Some TX86_64) column n
  end.

(** What is reported of a row: why it is left empty, if it is. *)
Definition row_note (p : printers1) (m : elf_arch) (r : dw_row * Z) (l : list string) : Prop :=
  (inexpressible Amd64 (fst r) (snd r) -> exists h causes why, l = [pr_chain p (h :: causes)] /\ read_v1_reason' h = Some why /\
     v1_reason_holds' p m (snd r) (fst r) why) /\
  (~ inexpressible Amd64 (fst r) (snd r) -> l = []).

(** The rows that count, in order, with their return address registers. *)
Definition wide_with (c : dw_fde -> Z) (l : list dw_entry) : list (dw_row * Z) :=
  flat_map (fun f => map (fun r => (r, c f)) (wide_rows f)) (functions l).

(** What the file describes, as the repaired tool has it parsed. *)
Definition v1_entries_in (fx : v1fixes) (md : mode) (file : elf_file) : list dw_entry :=
  match elf_eh_frame file with
  | Some parse => ents_list (parse (v1_setup_with fx md file))
  | None => []
  end.

(** ** Setup *)

(** The file, with what the parser makes of it for other setups changed. *)
Definition same_when_set_up (st : parser_setup) (file file' : elf_file) : Prop :=
  elf_endian file' = elf_endian file /\ elf_architecture file' = elf_architecture file /\ elf_sections file' = elf_sections file /\
  option_map (fun parse => parse st) (elf_eh_frame file') = option_map (fun parse => parse st) (elf_eh_frame file).

(** ** Where a repair is missing *)

(** A section that says something else than the row, or nothing. *)
Definition v1_missaid (fx : v1fixes) (p : printers1) (md : mode) (c : dw_fde -> Z) (eh : eh_frame) (x : Z) (r : dw_row) : Prop :=
  eh_typed eh /\ (forall f, last_at eh f -> rows_disjoint f /\ rows_cover f) /\
  exists k s bs sf, dw_says eh c x r k /\ snd (v1_convert_with fx p ElfX86_64 md c (eh_entries eh)) = Ok s /\
    build_repaired md LE s = Ok bs /\ load md LE bs = Ok sf /\ forall u, looked_up_whole md LE sf x u -> ~ conveys Amd64 r k u.
