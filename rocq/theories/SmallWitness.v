(** A function whose last row starts at 0x80 (C151). *)
From Verif Require Import WriteWitness.
From Verif Require Export NarrowFacts.

Definition late_rows : list row := [row3 0 8 (-8) (-16); row3 0x80 16 (-8) (-16)].
Definition late0 : fdb := fdb_new options_new 0x1000 0x100.
Definition late : fdb := get_ok late0 (add_rows late0 late_rows).
Definition late_sfb : sfb := Eval vm_compute in get_ok (sfb_new options_new) (add_fdes (sfb_new options_new) [late; demo_f1]).
Definition late_bytes (e : endian) : bytes := get_ok [] (build rel64 e late_sfb).
Definition late_small (e : endian) : bytes := get_ok [] (build_narrow rel64 e late_sfb).

Lemma late_reach md : sfb_reach md late_sfb.
Proof.
  apply (add_fdes_reach md [late; demo_f1] (sfb_new options_new)).
  - constructor. constructor.
  - repeat constructor; [|apply demo_f1_reach].
    apply (add_rows_reach late_rows late0);
      [constructor; [constructor|unfold in_i32, i32_min, i32_max; lia|unfold in_u32, u32_max; lia]| |vm_compute; reflexivity].
    repeat constructor; cbn; try (unfold in_u32, in_i32, u32_max, i32_min, i32_max; lia).
  - vm_compute. reflexivity.
Qed.

(** [build] says its two rows in twelve bytes where ten do. *)
Theorem late_not_fewest e : exists b aw seg,
  sfb_reach rel64 late_sfb /\ build rel64 e late_sfb = Ok (late_bytes e) /\ nth_error (fdes_of late_sfb) 1 = Some b /\
  rows_stored e (late_bytes e) 1 aw seg /\ says_rows e aw seg (map written (rows_of b)) /\
  zlen seg = 12 /\ fewest 10 (map written (rows_of b)) /\ ~ fewest (zlen seg) (map written (rows_of b)).
Proof.
  assert (B : build rel64 e late_sfb = Ok (late_bytes e)) by (destruct e; vm_compute; reflexivity).
  assert (N : exists b, nth_error (fdes_of late_sfb) 1 = Some b /\ b = late) by (eexists; split; vm_compute; reflexivity).
  destruct N as (b & N & Eb).
  destruct (rows_excess rel64 e late_sfb _ 1 b (late_reach rel64) B N) as (aw & seg & H1 & H2 & H3).
  exists b, aw, seg. split; [apply late_reach|]. split; [exact B|]. split; [exact N|]. split; [exact H1|]. split; [exact H2|].
  pose proof (sfb_reach_wf _ _ (late_reach rel64)) as W. destruct (in_fdes_wf _ _ _ W N) as [Wb _].
  pose proof (narrow_fewest b Wb) as F.
  replace (excess (rows_of b)) with 1 in H3 by (rewrite Eb; vm_compute; reflexivity).
  replace (zlen (rows_of b)) with 2 in H3 by (rewrite Eb; vm_compute; reflexivity).
  replace (narrow_fre_size b) with 10 in F by (rewrite Eb; vm_compute; reflexivity).
  assert (Z : zlen seg = 12).
  { destruct H3 as [(e1 & a1 & b1 & S1 & L1) M1], F as [(e2 & a2 & b2 & S2 & L2) M2].
    specialize (M1 _ _ _ S2). specialize (M2 _ _ _ S1). lia. }
  split; [exact Z|]. split; [exact F|]. rewrite Z. intros [_ M]. destruct F as [(e2 & a2 & b2 & S2 & L2) _].
  specialize (M _ _ _ S2). lia.
Qed.

(** What a reader gets out of a section. *)
Definition read_all (e : endian) (bs : bytes) : option (list (Z * Z * option (list (spec_row + read_error)))) :=
  match load rel64 e bs with
  | Ok sf => Some (map (fun en => (en_start_address en, en_size en,
      match all_fres rel64 e en with
      | Ok l => Some (map (fun x => match x with inl fr => inl (view_fre fr) | inr er => inr er end) l)
      | _ => None
      end)) (all_fdes sf))
  | _ => None
  end.

(** A shorter section from which a reader gets the same functions and rows. *)
Theorem late_shorter e :
  build_narrow rel64 e late_sfb = Ok (late_small e) /\ zlen (late_small e) = zlen (late_bytes e) - 2 /\
  read_all e (late_small e) = read_all e (late_bytes e) /\
  read_all e (late_small e) =
    Some [(0x100, 16, Some (map inl (map written (rows_of demo_f1)))); (0x1000, 0x100, Some (map inl (map written (rows_of late))))].
Proof. destruct e; vm_compute; repeat split. Qed.

(** The other function of the same table is said in the fewest bytes. *)
Theorem fewest_case e : exists b,
  sfb_reach rel64 late_sfb /\ build rel64 e late_sfb = Ok (late_bytes e) /\ nth_error (fdes_of late_sfb) 0 = Some b /\
  excess (rows_of b) = 0 /\ zlen (rows_of b) = 2 /\ rust_slice rel64 (late_small e) /\ Forall rows_inside (fdes_of late_sfb).
Proof.
  eexists. split; [apply late_reach|]. split; [destruct e; vm_compute; reflexivity|]. split; [vm_compute; reflexivity|].
  do 2 (split; [vm_compute; reflexivity|]). split; [destruct e; vm_compute; reflexivity|].
  repeat constructor; cbn; lia.
Qed.
