(** A program that runs on AArch64, and what it means that its stack can be walked at every
    moment (C157).  As RunSpec.v, but a call leaves the return address in a register.

    Two kinds of functions: those that call others and therefore save the return address and
    the frame pointer ([stp x29, x30, [sp, -8k]!; mov x29, sp; ..; ldp x29, x30, [sp], 8k; ret]), maybe
    signed ([paciasp] in front, [autiasp] behind), and those that do not ([sub sp, room; ..; add sp, room;
    ret]).  What the instructions in between do is left open, except that they keep [x29], [sp] and
    what has been saved and lies above the frame, and [x30] too where it has not been saved. *)
From Verif Require Export RunSpec ConvRepairedSpec.
Open Scope Z_scope.
Open Scope list_scope.

(** ** Functions *)

(** Counts are of instructions, of 4 bytes each; the frame has [words] words. *)
Inductive akind : Type :=
| ALeaf (room count : Z)
| AFrame (signed : bool) (words count : Z).
Record afunc : Type := AFunc { af_start : Z; af_kind : akind }.

(** Distances from the start: of [stp]; of the body; of [ret]; of the end. *)
Definition af_save (signed : bool) : Z := if signed then 4 else 0.
Definition af_ret (f : afunc) : Z :=
  match af_kind f with ALeaf _ n => 8 + 4 * n | AFrame signed _ n => 2 * af_save signed + 12 + 4 * n end.
Definition af_len (f : afunc) : Z := af_ret f + 4.
Definition af_wf (f : afunc) : Prop :=
  match af_kind f with ALeaf room n => 0 <= room /\ 0 <= n | AFrame _ k n => 2 <= k /\ 0 <= n end.

(** ** The machine *)

Record athread : Type := AThread { at_pc : Z; at_sp : Z; at_fp : Z; at_lr : Z; at_mem : Z -> Z }.

(** The frame of a caller: where the call returns to, and the registers before it. *)
Definition caller (pc sp fp : Z) : lk_frame := LkFrame false pc sp (Some fp) None.

(** One instruction.  [sign] makes a signed address of an address and the stack pointer, [strip]
    the address again. *)
Inductive amoves (sign : Z -> Z -> Z) (strip : Z -> Z) (bias : Z) (fs : list afunc)
  : list lk_frame * athread -> list lk_frame * athread -> Prop :=
| a_sub st f room n sp fp lr m :
    In f fs -> af_kind f = ALeaf room n -> room <= sp ->
    amoves sign strip bias fs (st, AThread (bias + af_start f) sp fp lr m) (st, AThread (bias + af_start f + 4) (sp - room) fp lr m)
| a_leaf st f room n i j sp fp lr m m' :
    In f fs -> af_kind f = ALeaf room n -> 0 <= i < n -> 0 <= j <= n -> kept (sp + room) m m' ->
    amoves sign strip bias fs (st, AThread (bias + af_start f + 4 + 4 * i) sp fp lr m) (st, AThread (bias + af_start f + 4 + 4 * j) sp fp lr m')
| a_add st f room n sp fp lr m :
    In f fs -> af_kind f = ALeaf room n ->
    amoves sign strip bias fs (st, AThread (bias + af_start f + 4 + 4 * n) sp fp lr m) (st, AThread (bias + af_start f + 8 + 4 * n) (sp + room) fp lr m)
| a_pac st f k n sp fp lr m :
    In f fs -> af_kind f = AFrame true k n ->
    amoves sign strip bias fs (st, AThread (bias + af_start f) sp fp lr m) (st, AThread (bias + af_start f + 4) sp fp (sign lr sp) m)
| a_stp st f signed k n sp fp lr m m' :
    In f fs -> af_kind f = AFrame signed k n -> 8 * k <= sp -> m' (sp - 8 * k) = fp -> m' (sp - 8 * k + 8) = lr -> kept sp m m' ->
    amoves sign strip bias fs (st, AThread (bias + af_start f + af_save signed) sp fp lr m)
      (st, AThread (bias + af_start f + af_save signed + 4) (sp - 8 * k) fp lr m')
| a_mov st f signed k n sp fp lr m :
    In f fs -> af_kind f = AFrame signed k n ->
    amoves sign strip bias fs (st, AThread (bias + af_start f + af_save signed + 4) sp fp lr m)
      (st, AThread (bias + af_start f + af_save signed + 8) sp sp lr m)
| a_body st f signed k n i j sp fp lr lr' m m' :
    In f fs -> af_kind f = AFrame signed k n -> 0 <= i < n -> 0 <= j <= n ->
    m' sp = m sp -> m' (sp + 8) = m (sp + 8) -> kept (sp + 8 * k) m m' ->
    amoves sign strip bias fs (st, AThread (bias + af_start f + af_save signed + 8 + 4 * i) sp fp lr m)
      (st, AThread (bias + af_start f + af_save signed + 8 + 4 * j) sp fp lr' m')
| a_ldp st f signed k n sp fp lr m :
    In f fs -> af_kind f = AFrame signed k n ->
    amoves sign strip bias fs (st, AThread (bias + af_start f + af_save signed + 8 + 4 * n) sp fp lr m)
      (st, AThread (bias + af_start f + af_save signed + 12 + 4 * n) (sp + 8 * k) (m sp) (m (sp + 8)) m)
| a_aut st f k n sp fp lr m :
    In f fs -> af_kind f = AFrame true k n ->
    amoves sign strip bias fs (st, AThread (bias + af_start f + 16 + 4 * n) sp fp lr m) (st, AThread (bias + af_start f + 20 + 4 * n) sp fp (strip lr) m)
| a_call st f g signed k n i j sp fp lr m :
    In f fs -> In g fs -> af_kind f = AFrame signed k n -> 0 <= i < j -> j <= n ->
    amoves sign strip bias fs (st, AThread (bias + af_start f + af_save signed + 8 + 4 * i) sp fp lr m)
      (caller (bias + af_start f + af_save signed + 8 + 4 * j) sp fp :: st,
       AThread (bias + af_start g) sp fp (bias + af_start f + af_save signed + 8 + 4 * j) m)
| a_return c st f sp fp lr m :
    In f fs ->
    amoves sign strip bias fs (c :: st, AThread (bias + af_start f + af_ret f) sp fp lr m) (st, AThread lr sp fp lr m).

Inductive aruns (sign : Z -> Z -> Z) (strip : Z -> Z) (bias : Z) (fs : list afunc) (s0 : list lk_frame * athread)
  : list lk_frame * athread -> Prop :=
| aruns_none : aruns sign strip bias fs s0 s0
| aruns_more s s' : aruns sign strip bias fs s0 s -> amoves sign strip bias fs s s' -> aruns sign strip bias fs s0 s'.

Definition astarts (bias : Z) (fs : list afunc) (back : Z) (s : list lk_frame * athread) : Prop :=
  exists f sp fp m, In f fs /\ 0 <= sp < 2 ^ 64 /\
    s = ([caller back sp fp], AThread (bias + af_start f) sp fp back m).

(** Addresses of code leave room for a signature, which can be taken off again. *)
Definition canonical (v : Z) : Prop := 0 <= v < 2 ^ 48.
Definition signs (sign : Z -> Z -> Z) (strip : Z -> Z) : Prop := forall v s, canonical v -> strip (sign v s) = v.
Definition loaded_low (bias : Z) (fs : list afunc) : Prop :=
  forall f, In f fs -> 0 <= bias + af_start f /\ bias + af_start f + af_len f < 2 ^ 48.

(** ** Walks *)

Definition frame_of_athread (x : athread) : lk_frame := LkFrame true (at_pc x) (at_sp x) (Some (at_fp x)) (Some (at_lr x)).

Definition asees (strip : Z -> Z) (bias : Z) (w : world) (x : athread) : Prop :=
  (forall a, w_mem w a = Some (at_mem x a)) /\ (forall v, w_strip w v = strip v) /\ (forall p, w_look w true p = p - bias) /\
  forall p, w_look w false p = p - bias \/ w_look w false p = p - bias - 1.

Definition awalked (w : world) (tells : Z -> unwind -> Prop) (st : list lk_frame) (x : athread) : Prop :=
  forall l, walk (lk_step w tells) (frame_of_athread x) l <-> exists rest, st = l ++ rest.

(** At every moment of every run at which the thread is not at an instruction that [ok] excepts. *)
Definition aalways_walked (eh : eh_frame) (fs : list afunc) (ok : afunc -> Z -> Prop) (tells : Z -> unwind -> Prop) : Prop :=
  forall sign strip bias back s0 st x w,
    signs sign strip -> loaded_low bias fs -> canonical back ->
    astarts bias fs back s0 -> aruns sign strip bias fs s0 (st, x) -> asees strip bias w x ->
    (forall f, last_at eh f -> ~ in_range (df_start f) (df_len f) (back - bias) /\
       ~ in_range (df_start f) (df_len f) (back - bias - 1)) ->
    (forall f o, In f fs -> 0 <= o < af_len f -> at_pc x = bias + af_start f + o -> ok f o) ->
    awalked w tells st x.

(** No exception; and where the return address has been saved. *)
Definition anywhere (f : afunc) (o : Z) : Prop := True.
Definition saved (f : afunc) (o : Z) : Prop :=
  match af_kind f with ALeaf _ _ => False | AFrame signed _ n => af_save signed + 4 <= o < af_save signed + 12 + 4 * n end.

(** ** Call frame information *)

(** What an unwinder should be told at a distance [o] from the start of a function.  In the body
    the stack pointer and the frame pointer are the same. *)
Definition right_unwind (f : afunc) (o : Z) (u : unwind) : Prop :=
  match af_kind f with
  | ALeaf room n =>
      (0 <= o < 4 \/ 8 + 4 * n <= o) /\ u = Unwind Sp false (Some 0) None None \/
      4 <= o < 8 + 4 * n /\ u = Unwind Sp false (Some room) None None
  | AFrame signed k n =>
      (0 <= o < 4 \/ 2 * af_save signed + 12 + 4 * n <= o) /\ u = Unwind Sp false (Some 0) None None \/
      signed = true /\ (4 <= o < 8 \/ 16 + 4 * n <= o < 20 + 4 * n) /\ u = Unwind Sp true (Some 0) None None \/
      af_save signed + 4 <= o < af_save signed + 12 + 4 * n /\ u = Unwind Sp signed (Some (8 * k)) (Some (8 - 8 * k)) (Some (- (8 * k))) \/
      af_save signed + 8 <= o < af_save signed + 12 + 4 * n /\ u = Unwind Fp signed (Some (8 * k)) (Some (8 - 8 * k)) (Some (- (8 * k)))
  end.

Definition afunctions_apart (fs : list afunc) : Prop :=
  forall f g a, In f fs -> In g fs -> af_start f <= a < af_start f + af_len f -> af_start g <= a < af_start g + af_len g -> f = g.

(** What compilers write for such functions. *)
Definition aprogram_of (f : afunc) : list insn :=
  match af_kind f with
  | ALeaf room n => [ IAdvanceLoc 1; IDefCfaOffset room; IAdvanceLoc (n + 1); IDefCfaOffset 0 ]
  | AFrame false k n =>
      [ IAdvanceLoc 1; IDefCfaOffset (8 * k); IOffset 29 k; IOffset 30 (k - 1); IAdvanceLoc (n + 2); IRestore 30; IRestore 29; IDefCfaOffset 0 ]
  | AFrame true k n =>
      [ IAdvanceLoc 1; INegateRaState; IAdvanceLoc 1; IDefCfaOffset (8 * k); IOffset 29 k; IOffset 30 (k - 1); IAdvanceLoc (n + 2);
        IRestore 30; IRestore 29; IDefCfaOffset 0; IAdvanceLoc 1; INegateRaState ]
  end.
Definition ausual_cie : cie_info := Cie 4 (-8) [IDefCfa 31 0].

Definition awritten_for (f : afunc) (d : dw_fde) : Prop :=
  df_start d = af_start f /\ df_len d = af_len f /\ df_insns d = Insns (aprogram_of f) None /\ follows_dwarf ausual_cie d.
Definition acompiled (fs : list afunc) (ents : dw_entries) : Prop :=
  ents_end ents = None /\ (forall g, ~ In (DwBadFde g) (ents_list ents)) /\ Forall2 awritten_for fs (functions (ents_list ents)).

(** Sizes, as for RunSpec.v. *)
Definition amoderate (fs : list afunc) : Prop :=
  (forall f, In f fs -> af_wf f /\ 0 <= af_start f /\ af_start f + af_len f <= i32_max /\ af_len f <= 0x10000000 /\
     match af_kind f with ALeaf room _ => room <= i32_max | AFrame _ k _ => 8 * k <= i32_max end) /\
  NoDup fs /\ afunctions_apart fs /\ 85 * zlen fs <= u32_max.
