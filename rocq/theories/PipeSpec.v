(** Running the tools one after the other: what somebody reads off the output of
    [sframedump] about an address. *)
From Coq Require Import String ZArith List.
From Verif Require Export CfiSpec TextSpec.
Open Scope Z_scope.
Open Scope list_scope.

(** What a line of a dump says: where the CFA, the caller's frame pointer and the
    return address are, and whether the return address is signed. *)
Record shown_rule : Type := Shown {
  sh_cfa : cell;
  sh_fp : cell;
  sh_ra : cell;
  sh_mangled : bool }.

Definition is_row (ln : dump_line) : Prop := match ln with LineRow _ _ _ _ _ => True | _ => False end.

(** Under the heading of a function that contains [x], the row with the greatest
    start not above [x]. *)
Definition dump_says (l : list dump_line) (x : Z) (v : shown_rule) : Prop :=
  exists before idx start size rows after s,
    l = before ++ LineFunc idx start size :: LineColumns PPcInc :: rows ++ LineBlank :: after /\
    Forall is_row rows /\ in_range start size x /\
    In (LineRow s (sh_cfa v) (sh_fp v) (sh_ra v) (sh_mangled v)) rows /\ s <= x /\
    forall s' cfa fp ra m, In (LineRow s' cfa fp ra m) rows -> s' <= x -> s' <= s.

(** How unwind information looks: the CFA as a register with an offset, the others
    as offsets from the CFA, [u] for what is not known. *)
Definition looks (u : unwind) : shown_rule :=
  {| sh_cfa := match uw_cfa u with Some o => CellBase (uw_base u) o | None => CellUnknown end;
     sh_fp := match uw_fp u with Some o => CellCfa o | None => CellUnknown end;
     sh_ra := match uw_ra u with Some o => CellCfa o | None => CellUnknown end;
     sh_mangled := uw_mangled u |}.

(** The object file [file] holds the section that [out] was written with. *)
Definition holds_section (file : elf_file) (out : out_file) : Prop :=
  (exists addr, has_section (elf_sections file) ".sframe"%string addr) /\ elf_sframe file = Some (out_sframe out).

(** Functions as [contains] and the addresses of rows can handle them. *)
Definition ends_in_range (f : dw_fde) : Prop := df_start f + df_len f <= 2 ^ 31.

(** A section whose functions are ordinary ones, decode, and lie within the range of
    addresses. *)
Definition plain_function (md : mode) (e : endian) (en : entry) : Prop :=
  en_fdetype en = PPcInc /\ reads_well md e en /\ en_start_address en + en_size en <= 2 ^ 31.
