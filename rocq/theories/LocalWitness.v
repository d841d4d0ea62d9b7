(** Concrete sections for C113 to C116. *)
From Verif Require Export LocalLookup DebugSpec EmitWitness ReadWitness.
Open Scope Z_scope.
Open Scope list_scope.

Definition set_byte (n : nat) (b : byte) (bs : bytes) : bytes := firstn n bs ++ [b] ++ skipn (S n) bs.

(** The demo section with a byte of the first function's first row changed, and
    one with a byte of the second function's row changed. *)
Definition hurt0 (e : endian) : bytes := set_byte 70 x30 (demo e).
Definition hurt1 (e : endian) : bytes := set_byte 80 x30 (demo e).
(** The first function's descriptor and rows overwritten. *)
Definition wrecked (e : endian) : bytes := set_byte 30 xff (set_byte 44 x07 (set_byte 68 xff (set_byte 69 xff (demo e)))).
Definition sf_of (e : endian) (bs : bytes) : sframe := get_ok dummy_sf (load rel64 e bs).

Lemma hurt_loads e : load rel64 e (hurt0 e) = Ok (sf_of e (hurt0 e)) /\ load rel64 e (hurt1 e) = Ok (sf_of e (hurt1 e)) /\
  load rel64 e (wrecked e) = Ok (sf_of e (wrecked e)) /\ load rel64 e (unsorted e) = Ok (unsorted_sf e) /\
  load rel64 e (set_byte 80 x30 (unsorted e)) = Ok (sf_of e (set_byte 80 x30 (unsorted e))).
Proof. destruct e; vm_compute; repeat split. Qed.

Lemma set_byte_nth n b bs p : (n < length bs)%nat -> nth_error (set_byte n b bs) p <> nth_error bs p -> p = n.
Proof.
  unfold set_byte. intros Hn H. destruct (Nat.eq_dec p n) as [|Hp]; [assumption|]. exfalso. apply H. clear H.
  transitivity (nth_error (firstn n bs ++ skipn n bs) p); [|rewrite firstn_skipn; reflexivity]. assert (HL : length (firstn n bs) = n) by (rewrite firstn_length; lia).
  destruct (Nat.lt_ge_cases p n) as [Hlt|Hge].
  - rewrite !nth_error_app1 by lia. reflexivity.
  - rewrite (nth_error_app2 (firstn n bs) ([b] ++ _)), (nth_error_app2 (firstn n bs) (skipn n bs)) by lia. rewrite HL. destruct (p - n)%nat as [|k] eqn:E; [lia|].
    change (nth_error ([b] ++ skipn (S n) bs) (S k)) with (nth_error (skipn (S n) bs) k). rewrite !nth_error_skipn'. f_equal. lia.
Qed.

Lemma hurt0_rows e : damaged_rows (fdes_of demo_sfb) 0 (demo e) (hurt0 e).
Proof.
  split; [destruct e; vm_compute; reflexivity|]. intros p Hp H0.
  assert (E : Z.to_nat p = 70%nat) by (apply (set_byte_nth 70 x30 (demo e)); [destruct e; vm_compute; lia|exact Hp]).
  exists demo_f1. split; [vm_compute; reflexivity|]. assert (p = 70) by lia. subst p. vm_compute. split; congruence.
Qed.

Lemma wrecked_damage e : damaged_in (fdes_of demo_sfb) 0 (demo e) (wrecked e) /\ spec_entry e (wrecked e) 0 <> spec_entry e (demo e) 0.
Proof.
  split; [|destruct e; vm_compute; discriminate].
  split; [destruct e; vm_compute; reflexivity|]. intros p Hp H0.
  assert (E : p = 30 \/ p = 44 \/ p = 68 \/ p = 69).
  { destruct (Z.eq_dec p 30); [auto|]. destruct (Z.eq_dec p 44); [auto|]. destruct (Z.eq_dec p 68); [auto|]. destruct (Z.eq_dec p 69); [auto|].
    exfalso. apply Hp. unfold wrecked.
    assert (K : forall n b bs, (n < length bs)%nat -> p <> Z.of_nat n -> nth_error (set_byte n b bs) (Z.to_nat p) = nth_error bs (Z.to_nat p)).
    { intros m b bs Hm Hne. destruct (nth_eq_dec (set_byte m b bs) bs (Z.to_nat p)) as [Q|Q]; [exact Q|]. apply set_byte_nth in Q; lia. }
    rewrite !K; try (destruct e; vm_compute; lia); try lia. reflexivity. }
  exists demo_f1. split; [vm_compute; reflexivity|].
  destruct E as [->|[->|[->| ->]]]; vm_compute; (left; split; congruence) || (right; split; congruence).
Qed.

(** Looking up an address of the second function reads the damaged rows of the first. *)
Theorem other_rows_looked_up :
  sfb_reach rel64 demo_sfb /\ build rel64 LE demo_sfb = Ok (demo LE) /\ rust_slice rel64 (demo LE) /\
  damaged_rows (fdes_of demo_sfb) 0 (demo LE) (hurt0 LE) /\
  load rel64 LE (demo LE) = Ok (demo_sf LE) /\ load rel64 LE (hurt0 LE) = Ok (sf_of LE (hurt0 LE)) /\
  exists en en' fr fr',
    fde_for_address rel64 (demo_sf LE) 0x204 = Ok (Some en) /\ fde_for_address rel64 (sf_of LE (hurt0 LE)) 0x204 = Ok (Some en') /\
    en_fde en = en_fde en' /\ view_fde (en_fde en) = spec_entry LE (demo LE) 1 /\
    get_fre_for_address rel64 LE en 0x204 = Ok (Some fr) /\ get_fre_for_address rel64 LE en' 0x204 = Ok (Some fr') /\
    fre_cfa_offset fr = Ok 8 /\ fre_cfa_offset fr' = Ok 48.
Proof.
  split; [apply demo_reach|]. split; [apply demo_built|]. split; [apply demo_slice, wf_rel64|]. split; [apply hurt0_rows|].
  split; [apply demo_loads|]. split; [apply hurt_loads|].
  eexists _, _, _, _. repeat (split; [vm_compute; reflexivity|]). vm_compute. reflexivity.
Qed.

(** A section of two functions in version 1: records without block size and padding. *)
Definition in_v1 (e : endian) (bs : bytes) : bytes :=
  firstn 2 bs ++ [x01] ++ sub_bytes 3 21 bs ++ enc e 4 34 ++ sub_bytes 28 17 bs ++ sub_bytes 48 17 bs ++ skipn 68 bs.
Definition demo_v1 (e : endian) : bytes := in_v1 e (demo e).

Lemma demo_v1_transcribed e : transcribed e (demo_v1 e) (demo e) /\ load rel64 e (demo_v1 e) = Ok (sf_of e (demo_v1 e)) /\
  rust_slice rel64 (demo_v1 e).
Proof.
  split; [|destruct e; vm_compute; auto].
  unfold transcribed. repeat (split; [destruct e; vm_compute; reflexivity|]). intros i Hi.
  assert (N : spec_num_fdes e (demo_v1 e) = 2) by (destruct e; vm_compute; reflexivity). rewrite N in Hi.
  assert (E : i = 0 \/ i = 1) by lia. destruct E as [-> | ->]; destruct e; vm_compute; repeat split.
Qed.

(** A repeated-block function means something else in each version. *)
Definition masked (e : endian) : bytes := set_byte 64 x08 (set_byte 65 x08 (demo e)).
Lemma masked_transcribed e : transcribed e (in_v1 e (masked e)) (masked e) /\
  load rel64 e (masked e) = Ok (sf_of e (masked e)) /\ load rel64 e (in_v1 e (masked e)) = Ok (sf_of e (in_v1 e (masked e))).
Proof.
  split; [|destruct e; vm_compute; auto].
  unfold transcribed. repeat (split; [destruct e; vm_compute; reflexivity|]). intros i Hi.
  assert (N : spec_num_fdes e (in_v1 e (masked e)) = 2) by (destruct e; vm_compute; reflexivity). rewrite N in Hi.
  assert (E : i = 0 \/ i = 1) by lia. destruct E as [-> | ->]; destruct e; vm_compute; repeat split.
Qed.
Lemma masks_differ e : 
  en_fdetype (nth_entry (sf_of e (in_v1 e (masked e))) 1) = PPcMaskV1 /\ en_fdetype (nth_entry (sf_of e (masked e)) 1) = PPcMask /\
  get_fre_for_address rel64 e (nth_entry (sf_of e (in_v1 e (masked e))) 1) 0x204 = Ok None /\
  exists fr, get_fre_for_address rel64 e (nth_entry (sf_of e (masked e)) 1) 0x204 = Ok (Some fr).
Proof. destruct e; (split; [vm_compute; reflexivity|]); (split; [vm_compute; reflexivity|]); (split; [vm_compute; reflexivity|]); eexists; vm_compute; reflexivity. Qed.
