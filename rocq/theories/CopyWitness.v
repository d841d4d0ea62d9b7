(** Concrete sections for copying (C139). *)
From Verif Require Export CopyFacts StdWitness.

Definition copy_sfb (e : endian) (sf : sframe) : sfb :=
  match section_read rel64 e sf with Some s => s | None => sfb_new options_new end.
Definition copy_bytes (e : endian) (sf : sframe) : bytes := get_ok [] (build rel64 e (copy_sfb e sf)).
Definition copy_sf (e : endian) (sf : sframe) : sframe := sf_of e (copy_bytes e sf).

(** The two functions of the sample, the second moved to where the first begins. *)
Definition doubled (e : endian) : bytes := set_byte (match e with LE => 49 | BE => 50 end) x01 (demo e).

(** A row that holds -128 and 128 in two bytes each. *)
Definition wide_row : row := row_new Sp 0 {| ro_cfa := -300; ro_ra := Some 128; ro_fp := None |}.
Definition wide (e : endian) : bytes :=
  match e with
  | LE => set_byte 51 xff (set_byte 50 x80 (get_ok [] (build rel64 e (one_row_sfb options_new wide_row))))
  | BE => set_byte 50 xff (set_byte 51 x80 (get_ok [] (build rel64 e (one_row_sfb options_new wide_row))))
  end.

(** A row without offsets and with base register SP. *)
Definition empty_sp (e : endian) : bytes := set_byte 49 x01 (get_ok [] (build rel64 e (one_row_sfb options_new (row_invalid 0)))).

(** The sample with its function's rows in reverse order and a reserved bit set. *)
Definition swapped (e : endian) : bytes :=
  set_byte 44 x40 (firstn 48 (single e) ++ skipn 53 (single e) ++ firstn 5 (skipn 48 (single e))).

(** What a section says at an address, computed. *)
Definition says_at (md : mode) (e : endian) (sf : sframe) (a : Z) : list (pauth * unwind) :=
  flat_map (fun en =>
    if (en_start_address en <=? a) && (a <? en_start_address en + en_size en) then
      match res (all_fres md e en) with
      | Some items =>
          match SectionSpec.good_rows items, lib_offset en a with
          | Some good, Some x =>
              map (fun fr => (en_pauth_key en, observed sf fr))
                (filter (fun fr => (fre_start_address_offset fr <=? x) &&
                   forallb (fun fr' => negb (fre_start_address_offset fr' <=? x) ||
                     (fre_start_address_offset fr' <=? fre_start_address_offset fr)) good) good)
          | _, _ => []
          end
      | None => []
      end
    else []) (all_fdes sf).

Lemma says_at_spec md e sf a k u : lib_says md e sf a k u <-> In (k, u) (says_at md e sf a).
Proof.
  unfold says_at. rewrite in_flat_map. split.
  - intros (en & good & x & fr & Hin & Ha & Hg & Hx & Hfr & Hle & Hmax & Hk & Hu). exists en. split; [exact Hin|].
    replace ((en_start_address en <=? a) && (a <? en_start_address en + en_size en)) with true
      by (symmetry; apply andb_true_intro; split; [apply Z.leb_le|apply Z.ltb_lt]; apply Ha).
    rewrite Hg. cbn [res]. rewrite good_rows_inl, Hx. apply in_map_iff. exists fr. split; [congruence|].
    apply filter_In. split; [exact Hfr|]. apply andb_true_intro. split; [apply Z.leb_le, Hle|].
    apply forallb_forall. intros f Hf. destruct (Z.leb_spec (fre_start_address_offset f) x); cbn [negb orb]; [|reflexivity].
    apply Z.leb_le, Hmax; assumption.
  - intros (en & Hin & H). destruct ((en_start_address en <=? a) && (a <? en_start_address en + en_size en)) eqn:Ea; [|destruct H].
    apply andb_true_iff in Ea. destruct Ea as [E1 E2]. apply Z.leb_le in E1. apply Z.ltb_lt in E2.
    destruct (all_fres md e en) as [items|er|] eqn:EA; cbn [res] in H; try (destruct H; fail).
    destruct (SectionSpec.good_rows items) as [good|] eqn:EG; [|destruct H]. apply good_rows_some in EG. subst items.
    destruct (lib_offset en a) as [x|] eqn:Ex; [|destruct H]. apply in_map_iff in H. destruct H as (fr & [= <- <-] & Hfr).
    apply filter_In in Hfr. destruct Hfr as [Hfr H]. apply andb_true_iff in H. destruct H as [H1 H2]. apply Z.leb_le in H1.
    rewrite forallb_forall in H2. exists en, good, x, fr. repeat apply conj; try assumption; try reflexivity.
    intros f Hf Hfx. specialize (H2 f Hf). apply orb_true_iff in H2. destruct H2 as [H2|H2]; [|apply Z.leb_le, H2].
    apply Z.leb_le in Hfx. rewrite Hfx in H2. discriminate.
Qed.

(** At [a] the section says exactly [u] with key A, if anything. *)
Definition says_just (e : endian) (sf : sframe) (a : Z) (u : option unwind) : Prop :=
  forall k v, lib_says rel64 e sf a k v <-> k = KeyA /\ u = Some v.

Lemma says_just_by e sf a u : says_at rel64 e sf a = match u with Some v => [(KeyA, v)] | None => [] end -> says_just e sf a u.
Proof.
  intros H k v. rewrite says_at_spec, H. destruct u as [w|]; cbn [In]; split.
  - intros [[= -> ->]|[]]. auto.
  - intros [-> [= ->]]. auto.
  - intros [].
  - intros [_ [=]].
Qed.

(** The section says [u] at [a], its copy says [u']. *)
Definition copy_differs (e : endian) (bs : bytes) (a : Z) (u u' : option unwind) : Prop :=
  load rel64 e bs = Ok (sf_of e bs) /\ copied rel64 rel64 e e (sf_of e bs) (copy_bytes e (sf_of e bs)) /\
  load rel64 e (copy_bytes e (sf_of e bs)) = Ok (copy_sf e (sf_of e bs)) /\
  says_just e (sf_of e bs) a u /\ says_just e (copy_sf e (sf_of e bs)) a u'.

Ltac copy_case e :=
  split; [destruct e; vm_compute; reflexivity|];
  split; [lazymatch goal with |- copied _ _ _ _ ?sf _ => exists (copy_sfb e sf); split; destruct e; vm_compute; reflexivity end|];
  split; [destruct e; vm_compute; reflexivity|];
  split; apply says_just_by; destruct e; vm_compute; reflexivity.

Theorem doubled_copy e : copy_differs e (doubled e) 0x101 (Some first_row) None.
Proof. copy_case e. Qed.
Theorem wide_copy e : copy_differs e (wide e) 0x100
  (Some (Unwind Sp false (Some (-128)) (Some 128) None)) (Some (Unwind Sp false (Some (-128)) (Some (-128)) None)).
Proof. copy_case e. Qed.
Theorem empty_copy e : copy_differs e (empty_sp e) 0x100 (Some (Unwind Sp false None None None)) (Some (Unwind Fp false None None None)).
Proof. copy_case e. Qed.
Theorem mask_copy e : copy_differs e (in_v1 e (LocalWitness.masked e)) 0x204 None (Some (Unwind Sp false (Some 24) (Some (-8)) (Some (-16)))).
Proof. copy_case e. Qed.

(** Rows in reverse order and reserved bits do not matter. *)
Theorem swapped_copy e :
  rust_slice rel64 (swapped e) /\ load rel64 e (swapped e) = Ok (sf_of e (swapped e)) /\
  section_read rel64 e (sf_of e (swapped e)) = Some (copy_sfb e (sf_of e (swapped e))) /\
  build rel64 e (copy_sfb e (sf_of e (swapped e))) = Ok (single e) /\ single e <> swapped e /\
  Forall (rows_copyable rel64 e) (all_fdes (sf_of e (swapped e))) /\
  NoDup (map en_start_address (all_fdes (sf_of e (swapped e)))) /\
  Forall (rows_kept rel64 e (sf_of e (swapped e))) (all_fdes (sf_of e (swapped e))) /\
  lib_says rel64 e (sf_of e (swapped e)) 0x104 KeyA second_row /\ lib_says rel64 e (single_sf e) 0x104 KeyA second_row.
Proof.
  assert (HS : rust_slice rel64 (swapped e)) by (destruct e; vm_compute; reflexivity).
  assert (HL : load rel64 e (swapped e) = Ok (sf_of e (swapped e))) by (destruct e; vm_compute; reflexivity).
  assert (HR : section_read rel64 e (sf_of e (swapped e)) = Some (copy_sfb e (sf_of e (swapped e)))) by (destruct e; vm_compute; reflexivity).
  split; [exact HS|]. split; [exact HL|]. split; [exact HR|]. split; [destruct e; vm_compute; reflexivity|].
  split; [destruct e; vm_compute; discriminate|].
  split; [apply (section_copyable rel64 e (swapped e) _ wf_rel64 HS HL); eexists; exact HR|].
  split; [destruct e; vm_compute; (constructor; [intros []|constructor])|].
  split; [|split; apply says_at_spec; destruct e; vm_compute; auto].
  assert (HE : exists en, all_fdes (sf_of e (swapped e)) = [en] /\ en_fdetype en = PPcInc /\
    Forall (fun fr => fre_offsets fr <> [] /\ Forall (fun v => -128 < v) (kept_offsets (sf_of e (swapped e)) fr)) (good_rows rel64 e en)).
  { exists (nth_entry (sf_of e (swapped e)) 0). split; [destruct e; vm_compute; reflexivity|].
    split; [destruct e; vm_compute; reflexivity|]. destruct e; vm_compute; repeat constructor; discriminate. }
  destruct HE as (en & -> & ET & HF). constructor; [|constructor]. split; [congruence|].
  intros good Hg. rewrite (good_rows_eq _ _ _ _ Hg). eapply Forall_impl; [|exact HF]. cbv beta.
  intros fr [H1 H2]. split; [contradiction|]. intros (m & Hm & Hmm & _).
  assert (In m (kept_offsets (sf_of e (swapped e)) fr)).
  { clear - Hm. revert m Hm. induction (kept_offsets _ fr) as [|v t IH]; intros m Hm; cbn [dominant] in Hm; [discriminate|].
    destruct (dominant t) as [w|]; [|injection Hm as ->; left; reflexivity].
    destruct (Z.abs v <? Z.abs w); injection Hm as ->; [right; apply IH; reflexivity|left; reflexivity]. }
  rewrite Forall_forall in H2. specialize (H2 m H). lia.
Qed.
