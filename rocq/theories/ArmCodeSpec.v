(** A program given by its instructions, on AArch64 (C161): a static check of the code, and what
    it means that the stack of a program that passes it can be walked.  As CodeSpec.v, but a call
    leaves the return address in [x30], from where it may be signed, saved and loaded again.

    ArmRunSpec.v has two kinds of functions.  Here a function is any arrangement of instructions
    with jumps between them. *)
From Verif Require Export ArmRunSpec.
Open Scope Z_scope.
Open Scope list_scope.

(** ** Functions *)

(** What instructions are made of, as far as [sp], [x29] and [x30] go. *)
Inductive aop : Type :=
| OMove (n : Z)             (* add sp, sp, n *)
| OFrame (n : Z)            (* add x29, sp, n *)
| OUnframe (n : Z)          (* sub sp, x29, n *)
| OStoreFp (d : Z)          (* str x29, [sp, d] *)
| OStoreLr (d : Z)
| OLoadFp (d : Z)           (* ldr x29, [sp, d] *)
| OLoadLr (d : Z)
| OSign | OAuth.            (* paciasp, autiasp *)

(** An instruction does some of these one after the other; so [stp x29, x30, [sp, -16]!] is
    [[OMove (-16); OStoreFp 0; OStoreLr 8]].  [AElse] stands for everything else: it goes on at one of
    [next] and may change [sp], [x29] or [x30] if so marked. *)
Inductive aact : Type :=
| AOps (l : list aop)
| ACall | ARet
| AJump                     (* to the start of a function *)
| AElse (sp_too fp_too lr_too : bool) (next : list Z).
Record aitem : Type := AItem { ai_at : Z; ai_act : aact }.

(** What is known before an instruction: the distance of the CFA from [sp] and from [x29]; where (from
    the CFA) the caller's [x29] has been saved, and whether [x29] is still or again the caller's; where
    the return address has been saved, and whether signed; whether [x30] is the return address, and
    whether signed. *)
Record aview : Type := AView {
  av_sp : option Z; av_fp : option Z;
  av_saved : option Z; av_same : bool;
  av_back : option (Z * bool); av_link : option bool }.

(** A function with its instructions, and what is claimed to be known at each. *)
Record aroutine : Type := ARoutine { ar_start : Z; ar_len : Z; ar_items : list aitem; ar_view : Z -> aview }.

(** Where an instruction may go on within its function. *)
Definition anext_of (i : aitem) : list Z :=
  match ai_act i with
  | AElse _ _ _ next => next
  | ARet | AJump => []
  | _ => [ai_at i + 4]
  end.

(** ** The check *)

(** The words that have been saved, and the same view with only those that [p] lets through. *)
Definition slots (v : aview) : list Z :=
  match av_saved v with Some k => [k] | None => [] end ++ match av_back v with Some (k, _) => [k] | None => [] end.
Definition only (p : Z -> bool) (v : aview) : aview :=
  AView (av_sp v) (av_fp v)
    match av_saved v with Some k => if p k then Some k else None | None => None end (av_same v)
    match av_back v with Some (k, sg) => if p k then Some (k, sg) else None | None => None end (av_link v).

Definition move_to (a : Z) (v : aview) : aview :=
  only (fun k => - a <=? k) (AView (Some a) (av_fp v) (av_saved v) (av_same v) (av_back v) (av_link v)).
Definition overwrite (k : Z) (v : aview) : aview := only (fun k' => (k' + 8 <=? k) || (k + 8 <=? k')) v.

(** What is known after an operation; [None] if it may not be used here. *)
Definition after_op (o : aop) (v : aview) : option aview :=
  match o with
  | OMove n =>
      match av_sp v with
      | Some a => if a - n <? 0 then None else Some (move_to (a - n) v)
      | None => if n <=? 0 then Some v else None
      end
  | OFrame n => Some (AView (av_sp v) (option_map (fun a => a - n) (av_sp v)) (av_saved v) false (av_back v) (av_link v))
  | OUnframe n =>
      match av_fp v with
      | Some b => if b + n <? 0 then None else Some (move_to (b + n) v)
      | None => None
      end
  | OStoreFp d =>
      match av_sp v with
      | Some a =>
          if (d <? 0) || (a - d <? 8) then None
          else let v' := overwrite (d - a) v in
            Some (AView (av_sp v') (av_fp v') (if av_same v then Some (d - a) else av_saved v') (av_same v') (av_back v') (av_link v'))
      | None => None
      end
  | OStoreLr d =>
      match av_sp v with
      | Some a =>
          if (d <? 0) || (a - d <? 8) then None
          else let v' := overwrite (d - a) v in
            Some (AView (av_sp v') (av_fp v') (av_saved v') (av_same v')
                    match av_link v with Some sg => Some (d - a, sg) | None => av_back v' end (av_link v'))
      | None => None
      end
  | OLoadFp d =>
      Some (AView (av_sp v) None (av_saved v) match av_sp v, av_saved v with Some a, Some k => k =? d - a | _, _ => false end
              (av_back v) (av_link v))
  | OLoadLr d =>
      Some (AView (av_sp v) (av_fp v) (av_saved v) (av_same v) (av_back v)
              match av_sp v, av_back v with Some a, Some (k, sg) => if k =? d - a then Some sg else None | _, _ => None end)
  | OSign =>
      Some (AView (av_sp v) (av_fp v) (av_saved v) (av_same v) (av_back v) match av_link v with Some false => Some true | _ => None end)
  | OAuth =>
      Some (AView (av_sp v) (av_fp v) (av_saved v) (av_same v) (av_back v) match av_link v with Some true => Some false | _ => None end)
  end.
Fixpoint after_ops (l : list aop) (v : aview) : option aview :=
  match l with
  | [] => Some v
  | o :: t => match after_op o v with Some v' => after_ops t v' | None => None end
  end.
Definition after_aact (a : aact) (v : aview) : option aview :=
  match a with
  | AOps l => after_ops l v
  | AElse sp_too fp_too lr_too _ =>
      Some (AView (if sp_too then None else av_sp v) (if fp_too then None else av_fp v) (av_saved v) (if fp_too then false else av_same v)
              (av_back v) (if lr_too then None else av_link v))
  | ACall | ARet | AJump => Some v
  end.

(** [v'] claims no more than [v]. *)
Definition aclaims_less (v v' : aview) : Prop :=
  (forall a, av_sp v' = Some a -> av_sp v = Some a) /\
  (forall b, av_fp v' = Some b -> av_fp v = Some b) /\
  (forall k, av_saved v' = Some k -> av_saved v = Some k) /\
  (av_same v' = true -> av_same v = true) /\
  (forall s, av_back v' = Some s -> av_back v = Some s) /\
  (forall sg, av_link v' = Some sg -> av_link v = Some sg).

(** On entry, and again before a return: the stack pointer is the CFA, [x29] is the caller's, and
    [x30] has the return address. *)
Definition entry_view : aview := AView (Some 0) None None true None (Some false).
Definition aunwound (v : aview) : Prop := av_sp v = Some 0 /\ av_same v = true /\ av_link v = Some false.

(** A call changes [x30], so of that nothing may be claimed where it is made. *)
Definition aitem_checked (f : aroutine) (i : aitem) : Prop :=
  (exists v, after_aact (ai_act i) (ar_view f (ai_at i)) = Some v /\
     forall o, In o (anext_of i) -> aclaims_less v (ar_view f o) /\ exists j, In j (ar_items f) /\ ai_at j = o) /\
  match ai_act i with
  | ACall => ar_view f (ai_at i + 4) = ar_view f (ai_at i) /\ av_link (ar_view f (ai_at i)) = None
  | ARet | AJump => aunwound (ar_view f (ai_at i))
  | _ => True
  end.
Definition achecked (f : aroutine) : Prop :=
  (forall i, In i (ar_items f) -> 0 <= ai_at i /\ ai_at i + 4 <= ar_len f /\ aitem_checked f i) /\
  (exists i, In i (ar_items f) /\ ai_at i = 0) /\ aclaims_less entry_view (ar_view f 0).

(** ** The machine *)

(** One operation.  A store of eight bytes changes what words overlapping them are. *)
Definition stores (a v : Z) (m m' : Z -> Z) : Prop := m' a = v /\ forall b, b <= a - 8 \/ a + 8 <= b -> m' b = m b.
Inductive does (sign : Z -> Z -> Z) (strip : Z -> Z) : aop -> athread -> athread -> Prop :=
| does_move n pc sp fp lr m : 0 <= sp + n -> does sign strip (OMove n) (AThread pc sp fp lr m) (AThread pc (sp + n) fp lr m)
| does_frame n pc sp fp lr m : does sign strip (OFrame n) (AThread pc sp fp lr m) (AThread pc sp (sp + n) lr m)
| does_unframe n pc sp fp lr m : 0 <= fp - n -> does sign strip (OUnframe n) (AThread pc sp fp lr m) (AThread pc (fp - n) fp lr m)
| does_store_fp d pc sp fp lr m m' : stores (sp + d) fp m m' -> does sign strip (OStoreFp d) (AThread pc sp fp lr m) (AThread pc sp fp lr m')
| does_store_lr d pc sp fp lr m m' : stores (sp + d) lr m m' -> does sign strip (OStoreLr d) (AThread pc sp fp lr m) (AThread pc sp fp lr m')
| does_load_fp d pc sp fp lr m : does sign strip (OLoadFp d) (AThread pc sp fp lr m) (AThread pc sp (m (sp + d)) lr m)
| does_load_lr d pc sp fp lr m : does sign strip (OLoadLr d) (AThread pc sp fp lr m) (AThread pc sp fp (m (sp + d)) m)
| does_sign pc sp fp lr m : does sign strip OSign (AThread pc sp fp lr m) (AThread pc sp fp (sign lr sp) m)
| does_auth pc sp fp lr m : does sign strip OAuth (AThread pc sp fp lr m) (AThread pc sp fp (strip lr) m).
Inductive does_all (sign : Z -> Z -> Z) (strip : Z -> Z) : list aop -> athread -> athread -> Prop :=
| does_none x : does_all sign strip [] x x
| does_more o l x y z : does sign strip o x y -> does_all sign strip l y z -> does_all sign strip (o :: l) x z.

(** The words that have to stay as they are for the calls in the list, the innermost of which is
    executing [pc], to return. *)
Inductive aguarded (bias : Z) (fs : list aroutine) : Z -> list lk_frame -> Z -> Prop :=
| aguarded_slot pc c st f o k : In f fs -> pc = bias + ar_start f + o -> 0 <= o < ar_len f -> In k (slots (ar_view f o)) ->
    aguarded bias fs pc (c :: st) (lx_sp c + k)
| aguarded_outer pc c st a : aguarded bias fs (lx_pc c) st a -> aguarded bias fs pc (c :: st) a.

(** One instruction.  [AElse] may write everywhere but to guarded words, and if it moves the stack
    pointer it puts it neither above one nor above the frame. *)
Inductive aacts (sign : Z -> Z -> Z) (strip : Z -> Z) (bias : Z) (fs : list aroutine)
  : list lk_frame * athread -> list lk_frame * athread -> Prop :=
| ado_ops st f i l sp fp lr m y :
    In f fs -> In i (ar_items f) -> ai_act i = AOps l ->
    does_all sign strip l (AThread (bias + ar_start f + ai_at i) sp fp lr m) y ->
    aacts sign strip bias fs (st, AThread (bias + ar_start f + ai_at i) sp fp lr m)
      (st, AThread (bias + ar_start f + (ai_at i + 4)) (at_sp y) (at_fp y) (at_lr y) (at_mem y))
| ado_else st f i sp_too fp_too lr_too next o sp sp' fp fp' lr lr' m m' :
    In f fs -> In i (ar_items f) -> ai_act i = AElse sp_too fp_too lr_too next -> In o next ->
    (sp_too = false -> sp' = sp) -> (fp_too = false -> fp' = fp) -> (lr_too = false -> lr' = lr) ->
    (sp_too = true -> 0 <= sp' /\ match st with c :: _ => sp' <= lx_sp c | [] => True end) ->
    (forall a, aguarded bias fs (bias + ar_start f + ai_at i) st a -> m' a = m a /\ (sp_too = true -> sp' <= a)) ->
    aacts sign strip bias fs (st, AThread (bias + ar_start f + ai_at i) sp fp lr m) (st, AThread (bias + ar_start f + o) sp' fp' lr' m')
| ado_call st f g i sp fp lr m :
    In f fs -> In g fs -> In i (ar_items f) -> ai_act i = ACall ->
    aacts sign strip bias fs (st, AThread (bias + ar_start f + ai_at i) sp fp lr m)
      (caller (bias + ar_start f + (ai_at i + 4)) sp fp :: st,
       AThread (bias + ar_start g + 0) sp fp (bias + ar_start f + (ai_at i + 4)) m)
| ado_ret c st f i sp fp lr m :
    In f fs -> In i (ar_items f) -> ai_act i = ARet ->
    aacts sign strip bias fs (c :: st, AThread (bias + ar_start f + ai_at i) sp fp lr m) (st, AThread lr sp fp lr m)
| ado_jump st f g i sp fp lr m :
    In f fs -> In g fs -> In i (ar_items f) -> ai_act i = AJump ->
    aacts sign strip bias fs (st, AThread (bias + ar_start f + ai_at i) sp fp lr m) (st, AThread (bias + ar_start g + 0) sp fp lr m).

Inductive agoes (sign : Z -> Z -> Z) (strip : Z -> Z) (bias : Z) (fs : list aroutine) (s0 : list lk_frame * athread)
  : list lk_frame * athread -> Prop :=
| agoes_none : agoes sign strip bias fs s0 s0
| agoes_more s s' : agoes sign strip bias fs s0 s -> aacts sign strip bias fs s s' -> agoes sign strip bias fs s0 s'.

Definition abegins (bias : Z) (fs : list aroutine) (back : Z) (s : list lk_frame * athread) : Prop :=
  exists f sp fp m, In f fs /\ 0 <= sp < 2 ^ 64 /\
    s = ([caller back sp fp], AThread (bias + ar_start f + 0) sp fp back m).

Definition aroutines_low (bias : Z) (fs : list aroutine) : Prop :=
  forall f, In f fs -> 0 <= bias + ar_start f /\ bias + ar_start f + ar_len f < 2 ^ 48.
Definition aroutines_apart (fs : list aroutine) : Prop :=
  forall f g a, In f fs -> In g fs -> ar_start f <= a < ar_start f + ar_len f -> ar_start g <= a < ar_start g + ar_len g -> f = g.

(** At every moment of every run at which the thread is at no instruction but those [ok] allows. *)
Definition acode_walked (eh : eh_frame) (fs : list aroutine) (ok : aroutine -> aitem -> Prop) (tells : Z -> unwind -> Prop) : Prop :=
  forall sign strip bias back s0 st x w,
    signs sign strip -> aroutines_low bias fs -> canonical back ->
    abegins bias fs back s0 -> agoes sign strip bias fs s0 (st, x) -> asees strip bias w x ->
    (forall f, last_at eh f -> ~ in_range (df_start f) (df_len f) (back - bias) /\
       ~ in_range (df_start f) (df_len f) (back - bias - 1)) ->
    (forall f i, In f fs -> In i (ar_items f) -> at_pc x = bias + ar_start f + ai_at i -> ok f i) ->
    awalked w tells st x.

Definition everywhere (f : aroutine) (i : aitem) : Prop := True.
(** Where nothing is claimed of [x30], so that the return address has to be found on the stack. *)
Definition on_stack (f : aroutine) (i : aitem) : Prop := av_link (ar_view f (ai_at i)) = None.

(** ** Call frame information *)

(** A rule is right if it follows from what is known. *)
Definition arule_right (v : aview) (r : dw_row) : Prop :=
  exists base mg cfa ra fp, expressible Aarch64 r 30 base mg cfa ra fp /\
    match base with Sp => av_sp v = Some cfa | Fp => av_fp v = Some cfa end /\
    match fp with Some k => av_saved v = Some k | None => av_same v = true end /\
    match ra with Some k => av_back v = Some (k, mg) | None => av_link v = Some mg end.

(** The call frame programs are right at every byte of every instruction. *)
Definition acode_described (eh : eh_frame) (cie : dw_fde -> cie_info) (fs : list aroutine) : Prop :=
  forall f i b, In f fs -> In i (ar_items f) -> ai_at i <= b < ai_at i + 4 ->
    exists d st, last_at eh d /\ in_range (df_start d) (df_len d) (ar_start f + b) /\
      cfi_at (cie d) d (ar_start f + b) = Some st /\ arule_right (ar_view f (ai_at i)) (as_row st).

(** No return address is saved signed. *)
Definition saved_unsigned (fs : list aroutine) : Prop :=
  forall f i k, In f fs -> In i (ar_items f) -> av_back (ar_view f (ai_at i)) <> Some (k, true).
