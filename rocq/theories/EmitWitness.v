(** Concrete cases for [P_Emit]. *)
From Verif Require Export TripWitness.

(** Two overlapping functions, and one more than [i32::MAX] below them. *)
Definition gap_low : fdb := fdb_new options_new (-2147483648) 1.
Definition over_a : fdb := fdb_new options_new 0x100 16.
Definition over_b : fdb := fdb_new options_new 0x108 16.
Definition over_sfb : sfb := get_ok (sfb_new options_new) (add_fdes (sfb_new options_new) [over_a; over_b]).
Definition gap_sfb : sfb := get_ok (sfb_new options_new) (add_fdes (sfb_new options_new) [gap_low; over_a]).
Definition gap_over_sfb : sfb := get_ok (sfb_new options_new) (add_fdes (sfb_new options_new) [gap_low; over_a; over_b]).

Lemma new_fde_reach start size : in_i32 start -> in_u32 size -> fdb_reach (fdb_new options_new start size).
Proof. intros. constructor; [constructor|assumption|assumption]. Qed.

Ltac in_range := unfold in_i32, in_u32, in_u8, i32_min, i32_max, u32_max; lia.
Ltac new_fdes := repeat (apply Forall_cons; [apply new_fde_reach; in_range|]); apply Forall_nil.

Lemma over_reach md : sfb_reach md over_sfb.
Proof. apply (add_fdes_reach md [over_a; over_b] (sfb_new options_new)); [repeat constructor|new_fdes|vm_compute; reflexivity]. Qed.
Lemma gap_reach md : sfb_reach md gap_sfb.
Proof. apply (add_fdes_reach md [gap_low; over_a] (sfb_new options_new)); [repeat constructor|new_fdes|vm_compute; reflexivity]. Qed.
Lemma gap_over_reach md : sfb_reach md gap_over_sfb.
Proof. apply (add_fdes_reach md [gap_low; over_a; over_b] (sfb_new options_new)); [repeat constructor|new_fdes|vm_compute; reflexivity]. Qed.

Lemma over_overlapping : overlapping over_sfb.
Proof. exists over_a, over_b. unfold in_range. vm_compute. repeat split; auto; discriminate. Qed.
Lemma gap_over_overlapping : overlapping gap_over_sfb.
Proof. exists over_a, over_b. unfold in_range. vm_compute. repeat split; auto; discriminate. Qed.
Lemma gap_wide : wide_gap (fdes_of gap_sfb) /\ ~ overlapping gap_sfb.
Proof.
  split.
  - exists gap_low, over_a. split; [exists [], []; vm_compute; reflexivity|vm_compute; reflexivity].
  - intros (a & b & Ha & Hb & Hne & [H1 H2]). vm_compute in Ha, Hb.
    destruct Ha as [<-|[<-|[]]], Hb as [<-|[<-|[]]]; cbn in *; lia.
Qed.
Lemma gap_no_too_large : ~ too_large gap_sfb.
Proof. intros [H|H]; vm_compute in H; discriminate. Qed.

Theorem gap_hides_overlap :
  sfb_reach dev64 gap_over_sfb /\ overlapping gap_over_sfb /\
  build dev64 LE gap_over_sfb = Panic /\ build rel64 LE gap_over_sfb = Err OverlappingFdes.
Proof. split; [apply gap_over_reach|]. split; [apply gap_over_overlapping|]. vm_compute. auto. Qed.

Theorem gap_stops_build :
  sfb_reach dev64 gap_sfb /\ ~ overlapping gap_sfb /\ ~ too_large gap_sfb /\
  build dev64 LE gap_sfb = Panic /\ (exists bs, build rel64 LE gap_sfb = Ok bs).
Proof.
  split; [apply gap_reach|]. split; [apply gap_wide|]. split; [apply gap_no_too_large|].
  split; [vm_compute; reflexivity|]. eexists. vm_compute. reflexivity.
Qed.

(** A builder too large for the header exists. *)
Lemma many_fdes md n : Z.of_nat n <= 2147483648 ->
  exists s, sfb_reach md s /\ sb_options s = options_new /\ length (fdes_of s) = n /\
    Forall (fun b => 0 <= fb_start b < Z.of_nat n /\ fb_size b = 0) (fdes_of s).
Proof.
  induction n as [|n IH]; intros Hn.
  - exists (sfb_new options_new). split; [repeat constructor|]. split; [reflexivity|]. split; [reflexivity|constructor].
  - destruct IH as (s & H1 & H2 & H3 & H4); [lia|].
    set (b := fdb_new options_new (Z.of_nat n) 0).
    assert (Hb : fdb_reach b) by (apply new_fde_reach; in_range).
    exists {| sb_options := sb_options s; sb_fdes := bt_insert (fb_start b) b (sb_fdes s) |}.
    assert (E : sfb_fde s b = Ok {| sb_options := sb_options s; sb_fdes := bt_insert (fb_start b) b (sb_fdes s) |}).
    { unfold sfb_fde. rewrite H2. reflexivity. }
    assert (G : bt_get (fb_start b) (sb_fdes s) = None).
    { destruct (bt_get (fb_start b) (sb_fdes s)) as [c|] eqn:G; [|reflexivity].
      apply (wf_get s _ c (sfb_reach_wf md s H1)) in G. destruct G as [Hc Ec].
      rewrite Forall_forall in H4. destruct (H4 c Hc) as [Hc1 _]. cbn in Ec. lia. }
    split; [eapply sr_fde; eassumption|]. split; [exact H2|]. split.
    + unfold fdes_of in *. cbn [sb_fdes]. rewrite map_length in *. rewrite insert_length_new by exact G. lia.
    + unfold fdes_of in *. cbn [sb_fdes]. rewrite Forall_forall in *. intros x Hx.
      apply in_map_iff in Hx. destruct Hx as ([k v] & <- & Hi). cbn [snd]. apply in_insert in Hi. destruct Hi as [Hi|Hi].
      * injection Hi as _ ->. cbn. lia.
      * destruct (H4 v) as [A B]; [apply in_map_iff; exists (k, v); auto|]. lia.
Qed.

Theorem too_large_exists md : exists s, sfb_reach md s /\ ~ overlapping s /\ ~ wide_gap (fdes_of s) /\ too_large s.
Proof.
  destruct (many_fdes md (Z.to_nat 214748365)) as (s & H1 & _ & H3 & H4); [lia|]. exists s.
  rewrite Z2Nat.id in H4 by lia. rewrite Forall_forall in H4.
  split; [exact H1|]. split; [|split].
  - intros (a & b & Ha & _ & _ & [R1 R2]). destruct (H4 a Ha) as [_ Hz]. lia.
  - intros (a & b & Hn & Hw). apply neighbours_in in Hn. destruct Hn as [Ha Hb].
    destruct (H4 a Ha), (H4 b Hb). unfold i32_max in Hw. lia.
  - right. unfold zlen. rewrite H3, Z2Nat.id by lia. unfold u32_max. lia.
Qed.

(** ** C37-C39 *)

Definition one_row_sfb (o : sframe_options) (r : row) : sfb :=
  get_ok (sfb_new o) (add_fdes (sfb_new o) [get_ok (fdb_new o 0 0) (add_rows (fdb_new o 0x100 16) [r])]).

(** No RA offset, but an FP offset. *)
Definition amb_sfb : sfb := one_row_sfb options_new no_ra_row.
(** The widest CFA offset of one byte, and its negation as the RA offset. *)
Definition tie_row : row := row_new Sp 0 {| ro_cfa := -128; ro_ra := Some 128; ro_fp := None |}.
Definition tie_sfb : sfb := one_row_sfb options_new tie_row.

Lemma fdb_row_sized b r b' : fdb_sized b -> row_typed r -> fdb_row b r = Ok b' -> fdb_sized b'.
Proof.
  intros Hb Hr H. unfold fdb_row in H. destruct (fdb_row_st b r) as [x o] eqn:E. destruct o; try discriminate.
  injection H as <-. replace x with (fst (fdb_row_st b r)) by (rewrite E; reflexivity). constructor; assumption.
Qed.

Lemma add_rows_sized l b b' : fdb_sized b -> Forall row_typed l -> add_rows b l = Ok b' -> fdb_sized b'.
Proof.
  revert b. induction l as [|r t IH]; intros b Hb Hl H; cbn in H.
  - injection H as <-. exact Hb.
  - apply bind_ok in H. destruct H as (b1 & H1 & H). inversion Hl as [|? ? Hr Ht]; subst.
    apply (IH b1); try assumption. eapply fdb_row_sized; eassumption.
Qed.

Lemma add_fdes_sized md l s s' : sfb_sized md s -> Forall fdb_sized l -> add_fdes s l = Ok s' -> sfb_sized md s'.
Proof.
  revert s. induction l as [|b t IH]; intros s Hs Hl H; cbn in H.
  - injection H as <-. exact Hs.
  - apply bind_ok in H. destruct H as (s1 & H1 & H). inversion Hl as [|? ? Hb Ht]; subst.
    apply (IH s1); try assumption. apply (ss_fde md s b s1); assumption.
Qed.

Ltac typed_rows := repeat (apply Forall_cons; [unfold row_typed, offsets_typed; cbn; in_range|]); apply Forall_nil.

Lemma demo_f1_sized : fdb_sized demo_f1.
Proof.
  apply (add_rows_sized [row3 0 8 (-8) (-16); row3 4 16 (-8) (-16)] (fdb_new options_new 0x100 16));
    [constructor; [constructor|in_range|in_range]|typed_rows|vm_compute; reflexivity].
Qed.
Lemma demo_f2_sized : fdb_sized demo_f2.
Proof.
  apply (add_rows_sized [row3 2 24 (-8) (-16)] (fdb_new options_new 0x200 300));
    [constructor; [constructor|in_range|in_range]|typed_rows|vm_compute; reflexivity].
Qed.
Lemma demo_sized md : sfb_sized md demo_sfb.
Proof.
  apply (add_fdes_sized md [demo_f2; demo_f1] (sfb_new options_new)).
  - constructor. constructor.
  - repeat constructor; [apply demo_f2_sized|apply demo_f1_sized].
  - vm_compute. reflexivity.
Qed.

Lemma one_row_sized md r b s : row_typed r -> add_rows (fdb_new options_new 0x100 16) [r] = Ok b ->
  add_fdes (sfb_new options_new) [b] = Ok s -> sfb_sized md s.
Proof.
  intros Hr Hb Hs. apply (add_fdes_sized md [b] (sfb_new options_new)); [repeat constructor| |exact Hs].
  apply Forall_cons; [|apply Forall_nil].
  apply (add_rows_sized [r] (fdb_new options_new 0x100 16)); [constructor; [constructor|in_range|in_range]| |exact Hb].
  apply Forall_cons; [exact Hr|apply Forall_nil].
Qed.

Lemma amb_sized md : sfb_sized md amb_sfb.
Proof. eapply (one_row_sized md no_ra_row); [apply no_ra_typed|vm_compute; reflexivity|vm_compute; reflexivity]. Qed.
Lemma tie_typed : row_typed tie_row.
Proof. unfold row_typed, offsets_typed; cbn; in_range. Qed.
Lemma tie_sized md : sfb_sized md tie_sfb.
Proof. eapply (one_row_sized md tie_row); [apply tie_typed|vm_compute; reflexivity|vm_compute; reflexivity]. Qed.

(** What the reader shows of the only row of the only function of a section. *)
Definition only_row (e : endian) (bs : bytes) : option unwind :=
  match load rel64 e bs with
  | Ok sf =>
      match all_fdes sf with
      | [en] => match all_fres rel64 e en with
                | Ok [inl fr] => Some (observed sf fr)
                | _ => None
                end
      | _ => None
      end
  | _ => None
  end.
Definition section (e : endian) (s : sfb) : bytes := get_ok [] (build rel64 e s).

(** An FP offset without an RA offset is read back as the RA offset. *)
Theorem ambiguous_misread :
  sfb_sized rel64 amb_sfb /\ build rel64 LE amb_sfb = Ok (section LE amb_sfb) /\
  map rows_of (fdes_of amb_sfb) = [[no_ra_row]] /\
  intended (sb_options amb_sfb) no_ra_row = Unwind Sp false (Some 16) None (Some (-16)) /\
  only_row LE (section LE amb_sfb) = Some (Unwind Sp false (Some 16) (Some (-16)) None).
Proof. split; [apply amb_sized|]. vm_compute. auto. Qed.

(** 128 is read back as -128. *)
Theorem tied_misread :
  sfb_sized rel64 tie_sfb /\ build rel64 LE tie_sfb = Ok (section LE tie_sfb) /\
  map rows_of (fdes_of tie_sfb) = [[tie_row]] /\
  intended (sb_options tie_sfb) tie_row = Unwind Sp false (Some (-128)) (Some 128) None /\
  only_row LE (section LE tie_sfb) = Some (Unwind Sp false (Some (-128)) (Some (-128)) None).
Proof. split; [apply tie_sized|]. vm_compute. auto. Qed.

Lemma shrunk_reach md : sfb_reach md shrunk_sfb.
Proof.
  apply (add_fdes_reach md [shrunk_f] (sfb_new options_new)); [repeat constructor| |vm_compute; reflexivity].
  apply Forall_cons; [|apply Forall_nil]. apply br_size; [in_range|].
  apply (add_rows_reach [row3 4 16 (-8) (-16)] (fdb_new options_new 0x100 16));
    [apply new_fde_reach; in_range|typed_rows|vm_compute; reflexivity].
Qed.

Theorem shrunk_unreadable :
  sfb_reach rel64 shrunk_sfb /\ build rel64 LE shrunk_sfb = Ok (shrunk LE) /\
  load rel64 LE (shrunk LE) = Ok (shrunk_sf LE) /\
  map (all_fres rel64 LE) (all_fdes (shrunk_sf LE)) = [Panic].
Proof. split; [apply shrunk_reach|]. vm_compute. auto. Qed.

(** The width the writer picks (C38). *)
Theorem width_exact r : row_typed r ->
  (Forall (storable (Z.of_nat (addr_bytes (row_offset_type r)))) (row_values r) <-> ~ tied r).
Proof. intros H. rewrite <- offset_width_type. apply width_untied, H. Qed.

Theorem width_too_small :
  row_typed tie_row /\ row_offset_type tie_row = SzU8 /\ In 128 (row_values tie_row) /\ ~ storable 1 128.
Proof. split; [apply tie_typed|]. vm_compute. repeat split; auto. intros [_ H]. discriminate. Qed.

(** ** C45 *)

Definition demo_calls : list opt_call :=
  [CallFramePointer true; CallAbi 1; CallFixedRa (Some (-8)); CallFixedFp (Some (-16)); CallAbi 3; CallFixedFp (Some 0)].
Lemma demo_calls_typed : Forall call_typed demo_calls.
Proof. repeat (apply Forall_cons; [cbn; unfold in_u8, in_i8; lia|]); apply Forall_nil. Qed.
Definition calls_sfb : sfb := sfb_new (run_calls demo_calls).
Lemma calls_reach md : sfb_reach md calls_sfb.
Proof. constructor. unfold run_calls, demo_calls. cbn [fold_left run_call]. repeat (constructor; try (cbn; unfold in_u8, in_i8; lia)). Qed.
