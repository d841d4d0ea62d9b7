(** A program that runs on amd64, and what it means that its stack can be walked at every
    moment (C155).

    Two kinds of functions: those that keep a frame pointer ([push rbp; mov rbp, rsp; ..; leave;
    ret]) and those that do not ([sub rsp, room; ..; add rsp, room; ret]).  What the instructions
    in between do is left open, except that they do not overwrite what lies above the frame,
    that they keep [rbp], and [rsp] too if there is no frame pointer.  They may call any function.

    Memory is a word for every address.  Words overlap, so a write below an address leaves the
    words from there on as they are, and nothing is said about the others. *)
From Verif Require Export CfiSpec WalkSpec StdSpec ProgramSpec.
Open Scope Z_scope.
Open Scope list_scope.

(** ** Functions *)

Inductive kind : Type :=
| WithFp (body : Z)
| WithoutFp (room body : Z).
Record func : Type := Func { fn_start : Z; fn_kind : kind }.

(** Distances from the start: of the body; of [leave] or [add]; of [ret]; of the end. *)
Definition fn_body (f : func) : Z := match fn_kind f with WithFp n | WithoutFp _ n => n end.
Definition fn_first (f : func) : Z := match fn_kind f with WithFp _ => 4 | WithoutFp _ _ => 7 end.
Definition fn_ret (f : func) : Z := match fn_kind f with WithFp n => 5 + n | WithoutFp _ n => 14 + n end.
Definition fn_len (f : func) : Z := fn_ret f + 1.
Definition fn_wf (f : func) : Prop :=
  match fn_kind f with WithFp n => 0 <= n | WithoutFp room n => 0 <= room /\ 0 <= n end.

(** ** The machine *)

Record thread : Type := Thread { t_pc : Z; t_sp : Z; t_fp : Z; t_mem : Z -> Z }.

(** The words from [lo] on are as before. *)
Definition kept (lo : Z) (m m' : Z -> Z) : Prop := forall a, lo <= a -> m' a = m a.

(** One instruction of the program [fs], which has been loaded [bias] bytes behind the addresses
    it was linked for.  The list is not part of the machine: it records what was called, that
    is for every call where it returns to and what the registers were before it. *)
Inductive moves (bias : Z) (fs : list func) : list sf_frame * thread -> list sf_frame * thread -> Prop :=
| do_push st f n sp fp m m' :
    In f fs -> fn_kind f = WithFp n -> 8 <= sp -> m' (sp - 8) = fp -> kept sp m m' ->
    moves bias fs (st, Thread (bias + fn_start f) sp fp m) (st, Thread (bias + fn_start f + 1) (sp - 8) fp m')
| do_mov st f n sp fp m :
    In f fs -> fn_kind f = WithFp n ->
    moves bias fs (st, Thread (bias + fn_start f + 1) sp fp m) (st, Thread (bias + fn_start f + 4) sp sp m)
| do_body_fp st f n i j sp sp' fp m m' :
    In f fs -> fn_kind f = WithFp n -> 0 <= i < n -> 0 <= j <= n -> 0 <= sp' <= fp -> kept fp m m' ->
    moves bias fs (st, Thread (bias + fn_start f + 4 + i) sp fp m) (st, Thread (bias + fn_start f + 4 + j) sp' fp m')
| do_leave st f n sp fp m :
    In f fs -> fn_kind f = WithFp n ->
    moves bias fs (st, Thread (bias + fn_start f + 4 + n) sp fp m) (st, Thread (bias + fn_start f + 5 + n) (fp + 8) (m fp) m)
| do_sub st f room n sp fp m :
    In f fs -> fn_kind f = WithoutFp room n -> room <= sp ->
    moves bias fs (st, Thread (bias + fn_start f) sp fp m) (st, Thread (bias + fn_start f + 7) (sp - room) fp m)
| do_body st f room n i j sp fp m m' :
    In f fs -> fn_kind f = WithoutFp room n -> 0 <= i < n -> 0 <= j <= n -> kept (sp + room) m m' ->
    moves bias fs (st, Thread (bias + fn_start f + 7 + i) sp fp m) (st, Thread (bias + fn_start f + 7 + j) sp fp m')
| do_add st f room n sp fp m :
    In f fs -> fn_kind f = WithoutFp room n ->
    moves bias fs (st, Thread (bias + fn_start f + 7 + n) sp fp m) (st, Thread (bias + fn_start f + 14 + n) (sp + room) fp m)
| do_call st f g i j sp fp m m' :
    In f fs -> In g fs -> 0 <= i < j -> j <= fn_body f -> 8 <= sp ->
    m' (sp - 8) = bias + fn_start f + fn_first f + j -> kept sp m m' ->
    moves bias fs (st, Thread (bias + fn_start f + fn_first f + i) sp fp m)
      (SfFrame false (bias + fn_start f + fn_first f + j) sp (Some fp) :: st, Thread (bias + fn_start g) (sp - 8) fp m')
| do_ret c st f sp fp m :
    In f fs ->
    moves bias fs (c :: st, Thread (bias + fn_start f + fn_ret f) sp fp m) (st, Thread (m sp) (sp + 8) fp m).

Inductive runs (bias : Z) (fs : list func) (s0 : list sf_frame * thread) : list sf_frame * thread -> Prop :=
| runs_none : runs bias fs s0 s0
| runs_more s s' : runs bias fs s0 s -> moves bias fs s s' -> runs bias fs s0 s'.

(** A thread begins with a call of one of the functions that will return to [back]. *)
Definition starts (bias : Z) (fs : list func) (back : Z) (s : list sf_frame * thread) : Prop :=
  exists f sp fp m, In f fs /\ 0 <= sp /\ sp + 8 < 2 ^ 64 /\ m sp = back /\
    s = ([SfFrame false back (sp + 8) (Some fp)], Thread (bias + fn_start f) sp fp m).

(** ** Walks *)

Definition frame_of_thread (x : thread) : sf_frame := SfFrame true (t_pc x) (t_sp x) (Some (t_fp x)).

(** How an unwinder sees the thread: it can read its memory, and looks return addresses up as
    they are or one byte before. *)
Definition sees (bias : Z) (w : world) (x : thread) : Prop :=
  (forall a, w_mem w a = Some (t_mem x a)) /\ (forall p, w_look w true p = p - bias) /\
  forall p, w_look w false p = p - bias \/ w_look w false p = p - bias - 1.

(** A walk by [tells] gives the calls that have not returned, the last first, and nothing else. *)
Definition walked (w : world) (tells : Z -> unwind -> Prop) (st : list sf_frame) (x : thread) : Prop :=
  forall l, walk (sf_step w tells) (frame_of_thread x) l <-> exists rest, st = l ++ rest.

(** At every moment of every run. *)
Definition always_walked (eh : eh_frame) (fs : list func) (tells : Z -> unwind -> Prop) : Prop :=
  forall bias back s0 st x w,
    starts bias fs back s0 -> runs bias fs s0 (st, x) -> sees bias w x ->
    (forall f, last_at eh f -> ~ in_range (df_start f) (df_len f) (back - bias) /\
       ~ in_range (df_start f) (df_len f) (back - bias - 1)) ->
    walked w tells st x.

(** ** Call frame information *)

(** The rules are right at a distance [o] from the start of a function.  Behind [leave] the
    frame pointer can still be found in memory too, and compilers often leave the rule that
    says so. *)
Definition right_rule (f : func) (o : Z) (r : dw_row) : Prop :=
  match fn_kind f with
  | WithFp n =>
      o = 0 /\ representable Amd64 r Sp 8 (-8) None \/
      1 <= o < 4 /\ representable Amd64 r Sp 16 (-8) (Some (-16)) \/
      4 <= o <= 4 + n /\ representable Amd64 r Fp 16 (-8) (Some (-16)) \/
      o = 5 + n /\ (representable Amd64 r Sp 8 (-8) None \/ representable Amd64 r Sp 8 (-8) (Some (-16)))
  | WithoutFp room n =>
      (0 <= o < 7 \/ o = 14 + n) /\ representable Amd64 r Sp 8 (-8) None \/
      7 <= o < 14 + n /\ representable Amd64 r Sp (room + 8) (-8) None
  end.

(** The call frame programs describe the functions. *)
Definition describes (eh : eh_frame) (cie : dw_fde -> cie_info) (fs : list func) : Prop :=
  forall f o, In f fs -> 0 <= o < fn_len f ->
    exists d st, last_at eh d /\ in_range (df_start d) (df_len d) (fn_start f + o) /\
      cfi_at (cie d) d (fn_start f + o) = Some st /\ right_rule f o (as_row st).

(** Functions do not overlap. *)
Definition functions_apart (fs : list func) : Prop :=
  forall f g a, In f fs -> In g fs -> fn_start f <= a < fn_start f + fn_len f -> fn_start g <= a < fn_start g + fn_len g -> f = g.

(** What compilers write for such functions. *)
Definition program_of (f : func) : list insn :=
  match fn_kind f with
  | WithFp n => [ IAdvanceLoc 1; IDefCfaOffset 16; IOffset 6 2; IAdvanceLoc 3; IDefCfaRegister 6; IAdvanceLoc (n + 1); IDefCfa 7 8 ]
  | WithoutFp room n => [ IAdvanceLoc 7; IDefCfaOffset (room + 8); IAdvanceLoc (n + 7); IDefCfaOffset 8 ]
  end.
(** The CIE they write for amd64. *)
Definition usual_cie : cie_info := Cie 1 (-8) [IDefCfa 7 8; IOffset 16 1].

(** The entry of [f], of whose program gimli makes what the standard says. *)
Definition written_for (f : func) (d : dw_fde) : Prop :=
  df_start d = fn_start f /\ df_len d = fn_len f /\ df_insns d = Insns (program_of f) None /\ follows_dwarf usual_cie d.

(** [ents] is what compilers write for the functions [fs]. *)
Definition compiled (fs : list func) (ents : dw_entries) : Prop :=
  ents_end ents = None /\ (forall g, ~ In (DwBadFde g) (ents_list ents)) /\ Forall2 written_for fs (functions (ents_list ents)).

(** The functions lie in the first 2 GiB, are no longer than 256 MiB, have frames below 2 GiB,
    and there are not too many of them for the sizes in a header. *)
Definition moderate (fs : list func) : Prop :=
  (forall f, In f fs -> fn_wf f /\ 0 <= fn_start f <= i32_max /\ fn_len f <= 0x10000000 /\
     match fn_kind f with WithFp _ => True | WithoutFp room _ => room + 8 <= i32_max end) /\
  NoDup fs /\ functions_apart fs /\ 68 * zlen fs <= u32_max.
