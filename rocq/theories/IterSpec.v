(** Specification for C105 to C107: mixed iteration over the descriptors of a
    section, and how many of them a search looks at. *)
From Verif Require Import Base Raw Read Write RepoTests.

(** A call of the descriptor iterator. *)
Inductive step : Type := Next | NextBack | Nth (n : nat).

Definition call (s : step) (it : fde_iter) : option entry * fde_iter :=
  match s with
  | Next => fdi_next it
  | NextBack => fdi_next_back it
  | Nth n => fdi_nth n it
  end.

(** Any sequence of calls: what they return, and the iterator afterwards. *)
Fixpoint calls (l : list step) (it : fde_iter) : list (option entry) * fde_iter :=
  match l with
  | [] => ([], it)
  | s :: t =>
      let (r, it') := call s it in
      let (rs, it'') := calls t it' in
      (r :: rs, it'')
  end.

(** What they should return: positions in the table, where [lo] to [hi] are those
    not yet delivered. *)
Definition expected_step (s : step) (lo hi : nat) : option nat * (nat * nat) :=
  (if lo <? hi then
     match s with
     | Next => (Some lo, (S lo, hi))
     | NextBack => (Some (hi - 1), (lo, hi - 1))
     | Nth n => if lo + n <? hi then (Some (lo + n), (S (lo + n), hi)) else (None, (hi, hi))
     end
   else (None, (lo, hi)))%nat.
Fixpoint expected (l : list step) (lo hi : nat) : list (option nat) * (nat * nat) :=
  match l with
  | [] => ([], (lo, hi))
  | s :: t =>
      let (r, w) := expected_step s lo hi in
      let (rs, w') := expected t (fst w) (snd w) in
      (r :: rs, w')
  end.

(** The position that was delivered, if any. *)
Definition delivered (l : list (option nat)) : list nat :=
  flat_map (fun o => match o with Some i => [i] | None => [] end) l.

(** [o] is the descriptor at a position: the one that a loop over the section
    delivers there. *)
Definition at_position (sf : sframe) (i : option nat) (o : option entry) : Prop :=
  match i, o with
  | None, None => True
  | Some i, Some en => exists en', nth_error (all_fdes sf) i = Some en' /\ en_fde en' = en_fde en
  | _, _ => False
  end.

(** Two sections have the same descriptor at a position. *)
Definition same_descriptor (sf sf' : sframe) (i : nat) : Prop :=
  option_map en_fde (nth_error (all_fdes sf) i) = option_map en_fde (nth_error (all_fdes sf') i).

(** What a search for a function found: its descriptor. *)
Definition found (o : outcome fuel_error (option entry)) : outcome fuel_error (option fde) :=
  match o with
  | Ok r => Ok (option_map en_fde r)
  | Err er => Err er
  | Panic => Panic
  end.

(** The section says that its descriptors are sorted. *)
Definition says_sorted (sf : sframe) : Prop := Z.odd (flags sf) = true.
