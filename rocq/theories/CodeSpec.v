(** A program given by its instructions, on amd64 (C158): a static check of the code, and what
    it means that the stack of a program that passes it can be walked at every moment.

    RunSpec.v has two kinds of functions.  Here a function is any arrangement of instructions
    with jumps between them, so that it may save registers, have several ends, use [rbp] for
    anything, reserve room of unknown size and end in a jump to another function. *)
From Verif Require Export RunSpec.
Open Scope Z_scope.
Open Scope list_scope.

(** ** Functions *)

(** What an instruction does to [rsp] (7) and [rbp] (6).  [Any] stands for everything else: it goes
    on at one of [next] and may change [rsp] or [rbp] if so marked. *)
Inductive act : Type :=
| Push (r : Z) | Pop (r : Z)
| SubSp (n : Z) | AddSp (n : Z)
| MovFp                     (* mov rbp, rsp *)
| LeaSp (n : Z)             (* lea rsp, [rbp - n] *)
| Leave
| CallFn | RetFn
| JumpFn                    (* to the start of a function *)
| Any (sp_too fp_too : bool) (next : list Z).
Record item : Type := Item { it_at : Z; it_len : Z; it_act : act }.

(** What is known before an instruction: the distance of the CFA from [rsp] and from [rbp], where
    (from the CFA) the caller's [rbp] has been saved, and whether [rbp] is still or again the caller's. *)
Record view : Type := View { vw_sp : option Z; vw_fp : option Z; vw_saved : option Z; vw_same : bool }.

(** A function with its instructions, and what is claimed to be known at each. *)
Record routine : Type := Routine { rt_start : Z; rt_len : Z; rt_items : list item; rt_view : Z -> view }.

(** Where an instruction may go on within its function. *)
Definition next_of (i : item) : list Z :=
  match it_act i with
  | Any _ _ next => next
  | RetFn | JumpFn => []
  | _ => [it_at i + it_len i]
  end.

(** ** The check *)

(** The word saved at [k] is not below a stack pointer at [- a]. *)
Definition not_below (a : Z) (saved : option Z) : Prop := forall k, saved = Some k -> - a <= k.
Definition unless_below (a : Z) (saved : option Z) : option Z :=
  match saved with Some k => if - a <=? k then Some k else None | None => None end.

(** What is known after an instruction; [None] if it may not be used here. *)
Definition after_act (a : act) (v : view) : option view :=
  match a with
  | Push r =>
      match vw_sp v with
      | Some d => Some (View (Some (d + 8)) (vw_fp v)
                          (if (r =? 6) && vw_same v then Some (- (d + 8)) else unless_below d (vw_saved v)) (vw_same v))
      | None => Some v
      end
  | Pop r =>
      match vw_sp v with
      | Some d =>
          if (r =? 7) || (d <? 16) then None
          else if r =? 6 then
            Some (View (Some (d - 8)) None (vw_saved v) match vw_saved v with Some k => k =? - d | None => false end)
          else Some (View (Some (d - 8)) (vw_fp v) (vw_saved v) (vw_same v))
      | None => None
      end
  | SubSp n => if n <? 0 then None else Some (View (option_map (fun d => d + n) (vw_sp v)) (vw_fp v) (vw_saved v) (vw_same v))
  | AddSp n =>
      match vw_sp v with
      | Some d => if (n <? 0) || (d - n <? 8) then None else Some (View (Some (d - n)) (vw_fp v) (vw_saved v) (vw_same v))
      | None => None
      end
  | MovFp => Some (View (vw_sp v) (vw_sp v) (vw_saved v) false)
  | LeaSp n =>
      match vw_fp v with
      | Some b => if b + n <? 8 then None else Some (View (Some (b + n)) (vw_fp v) (vw_saved v) (vw_same v))
      | None => None
      end
  | Leave =>
      match vw_fp v with
      | Some b =>
          if b <? 16 then None
          else Some (View (Some (b - 8)) None (vw_saved v) match vw_saved v with Some k => k =? - b | None => false end)
      | None => None
      end
  | Any sp_too fp_too _ =>
      Some (View (if sp_too then None else vw_sp v) (if fp_too then None else vw_fp v) (vw_saved v) (if fp_too then false else vw_same v))
  | CallFn | RetFn | JumpFn => Some v
  end.

(** [v'] claims no more than [v]. *)
Definition claims_less (v v' : view) : Prop :=
  (forall a, vw_sp v' = Some a -> vw_sp v = Some a) /\
  (vw_sp v' = None -> match vw_sp v with Some a => not_below a (vw_saved v') | None => True end) /\
  (forall b, vw_fp v' = Some b -> vw_fp v = Some b) /\
  (forall k, vw_saved v' = Some k -> vw_saved v = Some k) /\
  (vw_same v' = true -> vw_same v = true).

(** The stack pointer is where it was on entry, and [rbp] is the caller's. *)
Definition unwound (v : view) : Prop := vw_sp v = Some 8 /\ vw_same v = true.

Definition item_checked (f : routine) (i : item) : Prop :=
  (exists v, after_act (it_act i) (rt_view f (it_at i)) = Some v /\
     forall o, In o (next_of i) -> claims_less v (rt_view f o) /\ exists j, In j (rt_items f) /\ it_at j = o) /\
  match it_act i with
  | CallFn => rt_view f (it_at i + it_len i) = rt_view f (it_at i) /\
      match vw_sp (rt_view f (it_at i)) with Some a => not_below a (vw_saved (rt_view f (it_at i))) | None => True end
  | RetFn | JumpFn => unwound (rt_view f (it_at i))
  | _ => True
  end.

(** Instructions do not share addresses and lie in the function; it is entered at the first, with
    the return address on top of the stack. *)
Definition checked (f : routine) : Prop :=
  (forall i, In i (rt_items f) -> 0 <= it_at i /\ 1 <= it_len i /\ it_at i + it_len i <= rt_len f /\ item_checked f i) /\
  (forall i j, In i (rt_items f) -> In j (rt_items f) -> it_at i = it_at j -> i = j) /\
  (exists i, In i (rt_items f) /\ it_at i = 0) /\ claims_less (View (Some 8) None None true) (rt_view f 0).

(** ** The machine *)

(** The words that have to stay as they are for the calls in the list, the innermost of which is
    executing [pc], to return: the return addresses and the saved [rbp]s. *)
Inductive guarded (bias : Z) (fs : list routine) : Z -> list sf_frame -> Z -> Prop :=
| guarded_back pc c st : guarded bias fs pc (c :: st) (sx_sp c - 8)
| guarded_saved pc c st f o k : In f fs -> pc = bias + rt_start f + o -> 0 <= o < rt_len f -> vw_saved (rt_view f o) = Some k ->
    guarded bias fs pc (c :: st) (sx_sp c + k)
| guarded_outer pc c st a : guarded bias fs (sx_pc c) st a -> guarded bias fs pc (c :: st) a.

(** One instruction.  [Any] may write everywhere but to guarded words, and if it moves the stack
    pointer it does not put it above one. *)
Inductive acts (bias : Z) (fs : list routine) : list sf_frame * thread -> list sf_frame * thread -> Prop :=
| do_push_reg st f i r sp fp m m' :
    In f fs -> In i (rt_items f) -> it_act i = Push r -> 8 <= sp -> (r = 6 -> m' (sp - 8) = fp) -> kept sp m m' ->
    acts bias fs (st, Thread (bias + rt_start f + it_at i) sp fp m) (st, Thread (bias + rt_start f + (it_at i + it_len i)) (sp - 8) fp m')
| do_pop_reg st f i r sp fp m :
    In f fs -> In i (rt_items f) -> it_act i = Pop r -> r <> 7 ->
    acts bias fs (st, Thread (bias + rt_start f + it_at i) sp fp m)
      (st, Thread (bias + rt_start f + (it_at i + it_len i)) (sp + 8) (if r =? 6 then m sp else fp) m)
| do_sub_sp st f i n sp fp m :
    In f fs -> In i (rt_items f) -> it_act i = SubSp n -> n <= sp ->
    acts bias fs (st, Thread (bias + rt_start f + it_at i) sp fp m) (st, Thread (bias + rt_start f + (it_at i + it_len i)) (sp - n) fp m)
| do_add_sp st f i n sp fp m :
    In f fs -> In i (rt_items f) -> it_act i = AddSp n ->
    acts bias fs (st, Thread (bias + rt_start f + it_at i) sp fp m) (st, Thread (bias + rt_start f + (it_at i + it_len i)) (sp + n) fp m)
| do_mov_fp st f i sp fp m :
    In f fs -> In i (rt_items f) -> it_act i = MovFp ->
    acts bias fs (st, Thread (bias + rt_start f + it_at i) sp fp m) (st, Thread (bias + rt_start f + (it_at i + it_len i)) sp sp m)
| do_lea_sp st f i n sp fp m :
    In f fs -> In i (rt_items f) -> it_act i = LeaSp n -> n <= fp ->
    acts bias fs (st, Thread (bias + rt_start f + it_at i) sp fp m) (st, Thread (bias + rt_start f + (it_at i + it_len i)) (fp - n) fp m)
| do_leave_fn st f i sp fp m :
    In f fs -> In i (rt_items f) -> it_act i = Leave -> 0 <= fp ->
    acts bias fs (st, Thread (bias + rt_start f + it_at i) sp fp m) (st, Thread (bias + rt_start f + (it_at i + it_len i)) (fp + 8) (m fp) m)
| do_any st f i sp_too fp_too next o sp sp' fp fp' m m' :
    In f fs -> In i (rt_items f) -> it_act i = Any sp_too fp_too next -> In o next ->
    (sp_too = false -> sp' = sp) -> (fp_too = false -> fp' = fp) -> 0 <= sp' ->
    (forall a, guarded bias fs (bias + rt_start f + it_at i) st a -> m' a = m a /\ (sp_too = true -> sp' <= a)) ->
    acts bias fs (st, Thread (bias + rt_start f + it_at i) sp fp m) (st, Thread (bias + rt_start f + o) sp' fp' m')
| do_call_fn st f g i sp fp m m' :
    In f fs -> In g fs -> In i (rt_items f) -> it_act i = CallFn -> 8 <= sp ->
    m' (sp - 8) = bias + rt_start f + (it_at i + it_len i) -> kept sp m m' ->
    acts bias fs (st, Thread (bias + rt_start f + it_at i) sp fp m)
      (SfFrame false (bias + rt_start f + (it_at i + it_len i)) sp (Some fp) :: st, Thread (bias + rt_start g + 0) (sp - 8) fp m')
| do_ret_fn c st f i sp fp m :
    In f fs -> In i (rt_items f) -> it_act i = RetFn ->
    acts bias fs (c :: st, Thread (bias + rt_start f + it_at i) sp fp m) (st, Thread (m sp) (sp + 8) fp m)
| do_jump_fn st f g i sp fp m :
    In f fs -> In g fs -> In i (rt_items f) -> it_act i = JumpFn ->
    acts bias fs (st, Thread (bias + rt_start f + it_at i) sp fp m) (st, Thread (bias + rt_start g + 0) sp fp m).

Inductive goes (bias : Z) (fs : list routine) (s0 : list sf_frame * thread) : list sf_frame * thread -> Prop :=
| goes_none : goes bias fs s0 s0
| goes_more s s' : goes bias fs s0 s -> acts bias fs s s' -> goes bias fs s0 s'.

Definition begins (bias : Z) (fs : list routine) (back : Z) (s : list sf_frame * thread) : Prop :=
  exists f sp fp m, In f fs /\ 0 <= sp /\ sp + 8 < 2 ^ 64 /\ m sp = back /\
    s = ([SfFrame false back (sp + 8) (Some fp)], Thread (bias + rt_start f + 0) sp fp m).

(** At every moment of every run, as in RunSpec.v. *)
Definition code_always_walked (eh : eh_frame) (fs : list routine) (tells : Z -> unwind -> Prop) : Prop :=
  forall bias back s0 st x w,
    begins bias fs back s0 -> goes bias fs s0 (st, x) -> sees bias w x ->
    (forall f, last_at eh f -> ~ in_range (df_start f) (df_len f) (back - bias) /\
       ~ in_range (df_start f) (df_len f) (back - bias - 1)) ->
    walked w tells st x.

(** ** Call frame information *)

(** A rule is right if it follows from what is known. *)
Definition rule_right (v : view) (r : dw_row) : Prop :=
  exists base cfa fp, representable Amd64 r base cfa (-8) fp /\
    match base with Sp => vw_sp v = Some cfa | Fp => vw_fp v = Some cfa end /\
    match fp with Some k => vw_saved v = Some k | None => vw_same v = true end.

(** The call frame programs are right at every byte of every instruction. *)
Definition code_described (eh : eh_frame) (cie : dw_fde -> cie_info) (fs : list routine) : Prop :=
  forall f i b, In f fs -> In i (rt_items f) -> it_at i <= b < it_at i + it_len i ->
    exists d st, last_at eh d /\ in_range (df_start d) (df_len d) (rt_start f + b) /\
      cfi_at (cie d) d (rt_start f + b) = Some st /\ rule_right (rt_view f (it_at i)) (as_row st).

Definition routines_apart (fs : list routine) : Prop :=
  forall f g a, In f fs -> In g fs -> rt_start f <= a < rt_start f + rt_len f -> rt_start g <= a < rt_start g + rt_len g -> f = g.
