(** Laws of the sorted association list that models [BTreeMap]. *)
From Verif Require Export BaseFacts BTree.

Section Facts.
  Context {V : Type}.
  Implicit Types (m : btree V) (k : Z) (v : V).

  (** Keys strictly ascending. *)
  Definition sorted m : Prop := StronglySorted Z.lt (bt_keys m).

  Lemma sorted_nil : sorted [].
  Proof. constructor. Qed.

  Lemma sorted_cons_iff k v m :
    sorted ((k, v) :: m) <-> sorted m /\ (forall k' v', In (k', v') m -> k < k').
  Proof.
    unfold sorted, bt_keys. cbn [map fst]. split.
    - intros H. inversion H as [|? ? HS HF]; subst. split; [exact HS|].
      intros k' v' Hin. rewrite Forall_forall in HF. apply HF.
      apply in_map_iff. exists (k', v'). auto.
    - intros [HS HF]. constructor; [exact HS|]. apply Forall_forall.
      intros k' Hk'. apply in_map_iff in Hk'. destruct Hk' as ([a b] & <- & Hin). eauto.
  Qed.

  Lemma sorted_tail kv m : sorted (kv :: m) -> sorted m.
  Proof. destruct kv as [k v]. intros H. apply sorted_cons_iff in H. apply H. Qed.

  Lemma bt_get_in k v m : bt_get k m = Some v -> In (k, v) m.
  Proof.
    induction m as [|[k' v'] t IH]; cbn [bt_get]; [discriminate|].
    destruct (Z.eqb_spec k k') as [->|Hne].
    - intros [= ->]. left; reflexivity.
    - intros H. right. auto.
  Qed.

  Lemma in_bt_get k v m : sorted m -> In (k, v) m -> bt_get k m = Some v.
  Proof.
    induction m as [|[k' v'] t IH]; cbn [bt_get]; [intros _ []|].
    intros HS [[= -> ->]|Hin].
    - rewrite Z.eqb_refl. reflexivity.
    - apply sorted_cons_iff in HS. destruct HS as [HS HF].
      pose proof (HF _ _ Hin). destruct (Z.eqb_spec k k'); [lia|]. auto.
  Qed.

  Lemma bt_get_none k m : bt_get k m = None <-> (forall v, ~ In (k, v) m).
  Proof.
    induction m as [|[k' v'] t IH]; cbn [bt_get].
    - split; [intros _ v []|reflexivity].
    - destruct (Z.eqb_spec k k') as [->|Hne].
      + split; [discriminate|]. intros H. exfalso. apply (H v'). left; reflexivity.
      + rewrite IH. split.
        * intros H v [[= -> _]|Hin]; [congruence|]. eapply H; eauto.
        * intros H v Hin. apply (H v). right; exact Hin.
  Qed.

  Lemma bt_get_insert k v k' m :
    sorted m -> bt_get k' (bt_insert k v m) = if k' =? k then Some v else bt_get k' m.
  Proof.
    induction m as [|[a b] t IH]; cbn [bt_insert bt_get].
    - reflexivity.
    - intros HS. apply sorted_cons_iff in HS. destruct HS as [HS HF].
      destruct (Z.ltb_spec k a).
      + cbn [bt_get]. reflexivity.
      + destruct (Z.eqb_spec k a) as [->|Hka].
        * cbn [bt_get]. destruct (Z.eqb_spec k' a); reflexivity.
        * cbn [bt_get]. rewrite IH by exact HS.
          destruct (Z.eqb_spec k' a), (Z.eqb_spec k' k); try reflexivity; lia.
  Qed.

  Lemma in_insert k v m kv : In kv (bt_insert k v m) -> kv = (k, v) \/ In kv m.
  Proof.
    induction m as [|[a b] t IH]; cbn [bt_insert].
    - intros [<-|[]]. auto.
    - destruct (k <? a); [|destruct (k =? a)].
      + intros [<-|H]; auto.
      + intros [<-|H]; [auto|right; right; exact H].
      + intros [<-|H]; [right; left; reflexivity|].
        destruct (IH H); [auto|right; right; assumption].
  Qed.

  Lemma insert_in k v m : In (k, v) (bt_insert k v m).
  Proof.
    induction m as [|[a b] t IH]; cbn [bt_insert].
    - left; reflexivity.
    - destruct (k <? a); [|destruct (k =? a)]; [left; reflexivity..|right; exact IH].
  Qed.

  Lemma insert_sorted k v m : sorted m -> sorted (bt_insert k v m).
  Proof.
    induction m as [|[a b] t IH]; cbn [bt_insert].
    - intros _. apply sorted_cons_iff. split; [apply sorted_nil|intros ? ? []].
    - intros HS. pose proof HS as HS0. apply sorted_cons_iff in HS. destruct HS as [HS HF].
      destruct (Z.ltb_spec k a); [|destruct (Z.eqb_spec k a) as [->|Hka]].
      + apply sorted_cons_iff. split; [exact HS0|].
        intros k' v' [[= <- <-]|Hin]; [lia|]. pose proof (HF _ _ Hin). lia.
      + apply sorted_cons_iff. auto.
      + apply sorted_cons_iff. split; [auto|].
        intros k' v' Hin. apply in_insert in Hin.
        destruct Hin as [[= -> ->]|Hin]; [lia|eauto].
  Qed.

  Lemma insert_length_new k v m :
    bt_get k m = None -> length (bt_insert k v m) = S (length m).
  Proof.
    induction m as [|[a b] t IH]; cbn [bt_insert bt_get]; [reflexivity|].
    destruct (Z.eqb_spec k a); [discriminate|]. intros H.
    destruct (k <? a); cbn [length]; [reflexivity|]. rewrite IH by exact H. reflexivity.
  Qed.

  Lemma insert_keys_old k v v0 m :
    sorted m -> bt_get k m = Some v0 -> bt_keys (bt_insert k v m) = bt_keys m.
  Proof.
    induction m as [|[a b] t IH]; cbn [bt_insert bt_get]; [discriminate|].
    intros HS H. apply sorted_cons_iff in HS. destruct HS as [HS HF].
    destruct (Z.eqb_spec k a) as [->|Hne].
    - rewrite Z.ltb_irrefl. reflexivity.
    - apply bt_get_in in H as Hin. apply HF in Hin.
      destruct (Z.ltb_spec k a); [lia|].
      unfold bt_keys in *. cbn [map fst]. f_equal. auto.
  Qed.

  (** Two sorted maps with the same lookups are the same list. *)
  Lemma bt_ext m1 m2 :
    sorted m1 -> sorted m2 -> (forall k, bt_get k m1 = bt_get k m2) -> m1 = m2.
  Proof.
    revert m2. induction m1 as [|[k1 v1] t1 IH]; intros [|[k2 v2] t2] H1 H2 H.
    - reflexivity.
    - specialize (H k2). cbn [bt_get] in H. rewrite Z.eqb_refl in H. discriminate.
    - specialize (H k1). cbn [bt_get] in H. rewrite Z.eqb_refl in H. discriminate.
    - apply sorted_cons_iff in H1 as [S1 F1]. apply sorted_cons_iff in H2 as [S2 F2].
      assert (Hk : k1 = k2).
      { pose proof (H k1) as Ha. pose proof (H k2) as Hb. cbn [bt_get] in Ha, Hb.
        rewrite Z.eqb_refl in Ha, Hb.
        destruct (Z.eqb_spec k1 k2) as [|Hne]; [assumption|].
        destruct (Z.eqb_spec k2 k1) as [|]; [congruence|].
        symmetry in Ha. apply bt_get_in, F2 in Ha. apply bt_get_in, F1 in Hb. lia. }
      subst k2.
      assert (Hv : v1 = v2).
      { pose proof (H k1) as Ha. cbn [bt_get] in Ha. rewrite Z.eqb_refl in Ha. congruence. }
      subst v2. f_equal. apply IH; [exact S1|exact S2|].
      intros k. specialize (H k). cbn [bt_get] in H.
      destruct (Z.eqb_spec k k1) as [Hk|Hk]; [|exact H]. clear H. subst k.
      transitivity (@None V); [|symmetry]; apply bt_get_none.
      + intros v Hin. apply F1 in Hin. lia.
      + intros v Hin. apply F2 in Hin. lia.
  Qed.

  Lemma insert_comm k1 v1 k2 v2 m :
    sorted m -> k1 <> k2 ->
    bt_insert k1 v1 (bt_insert k2 v2 m) = bt_insert k2 v2 (bt_insert k1 v1 m).
  Proof.
    intros HS Hne. apply bt_ext.
    - apply insert_sorted, insert_sorted, HS.
    - apply insert_sorted, insert_sorted, HS.
    - intros k. rewrite !bt_get_insert; try apply insert_sorted; try exact HS.
      destruct (Z.eqb_spec k k1), (Z.eqb_spec k k2); try reflexivity. congruence.
  Qed.

  Lemma insert_same k v m : sorted m -> bt_get k m = Some v -> bt_insert k v m = m.
  Proof.
    intros HS H. apply bt_ext; [apply insert_sorted, HS|exact HS|].
    intros k'. rewrite bt_get_insert by exact HS.
    destruct (Z.eqb_spec k' k) as [->|]; congruence.
  Qed.

  (** *** [bt_remove], [bt_range_from] *)

  Lemma filter_sorted f m : sorted m -> sorted (filter f m).
  Proof.
    induction m as [|[k v] t IH]; cbn [filter]; [auto|].
    intros HS. apply sorted_cons_iff in HS. destruct HS as [HS HF].
    destruct (f (k, v)); [|auto].
    apply sorted_cons_iff. split; [auto|].
    intros k' v' Hin. apply filter_In in Hin. destruct Hin. eauto.
  Qed.

  Lemma remove_sorted k m : sorted m -> sorted (bt_remove k m).
  Proof. apply filter_sorted. Qed.

  Lemma bt_get_remove k k' m :
    bt_get k' (bt_remove k m) = if k' =? k then None else bt_get k' m.
  Proof.
    unfold bt_remove. induction m as [|[a b] t IH]; cbn [filter bt_get fst].
    - destruct (k' =? k); reflexivity.
    - destruct (Z.eqb_spec a k) as [->|Hne]; cbn [negb].
      + rewrite IH. destruct (Z.eqb_spec k' k); reflexivity.
      + cbn [bt_get]. rewrite IH.
        destruct (Z.eqb_spec k' a), (Z.eqb_spec k' k); try reflexivity. congruence.
  Qed.

  Lemma range_from_all k m : (forall k' v', In (k', v') m -> k <= k') -> bt_range_from k m = m.
  Proof.
    unfold bt_range_from. induction m as [|[a b] t IH]; cbn [filter fst]; [reflexivity|].
    intros H. pose proof (H a b ltac:(left; reflexivity)).
    destruct (Z.leb_spec k a); [|lia]. f_equal. apply IH.
    intros k' v' Hin. eapply H. right; exact Hin.
  Qed.

  Lemma range_from_app k m1 m2 :
    bt_range_from k (m1 ++ m2) = bt_range_from k m1 ++ bt_range_from k m2.
  Proof. apply filter_app. Qed.

  Lemma range_from_none k m : (forall k' v', In (k', v') m -> k' < k) -> bt_range_from k m = [].
  Proof.
    unfold bt_range_from. induction m as [|[a b] t IH]; cbn [filter fst]; [reflexivity|].
    intros H. pose proof (H a b ltac:(left; reflexivity)).
    destruct (Z.leb_spec k a); [lia|]. apply IH.
    intros k' v' Hin. eapply H. right; exact Hin.
  Qed.

  Lemma sorted_app_iff m1 m2 :
    sorted (m1 ++ m2) <->
    sorted m1 /\ sorted m2 /\
    (forall k1 v1 k2 v2, In (k1, v1) m1 -> In (k2, v2) m2 -> k1 < k2).
  Proof.
    induction m1 as [|[a b] t IH]; cbn [app].
    - split; [intros H; repeat split; [apply sorted_nil|exact H|intros ? ? ? ? []]|].
      intros (_ & H & _); exact H.
    - rewrite !sorted_cons_iff, IH. split.
      + intros ((H1 & H2 & H3) & HF). repeat split; auto.
        * intros k' v' Hin. eapply HF, in_or_app; left; eauto.
        * intros k1 v1 k2 v2 [[= -> ->]|Hin] Hin2; [|eauto].
          eapply HF, in_or_app; right; eauto.
      + intros ((H1 & HF) & H2 & H3). repeat split; auto.
        * intros k1 v1 k2 v2 Hi1 Hi2. eapply H3; [right; eauto|eauto].
        * intros k' v' Hin. apply in_app_or in Hin. destruct Hin as [Hin|Hin]; [eauto|].
          eapply H3; [left; reflexivity|eauto].
  Qed.

  Lemma remove_app k m1 m2 : bt_remove k (m1 ++ m2) = bt_remove k m1 ++ bt_remove k m2.
  Proof. apply filter_app. Qed.

  Lemma remove_notin k m : (forall v, ~ In (k, v) m) -> bt_remove k m = m.
  Proof.
    unfold bt_remove. induction m as [|[a b] t IH]; cbn [filter fst]; [reflexivity|].
    intros H. destruct (Z.eqb_spec a k) as [->|Hne]; cbn [negb].
    - exfalso. apply (H b). left; reflexivity.
    - f_equal. apply IH. intros v Hin. apply (H v). right; exact Hin.
  Qed.

  Lemma bt_last_app m kv : bt_last (m ++ [kv]) = Some kv.
  Proof.
    induction m as [|a t IH]; cbn [app bt_last]; [reflexivity|].
    destruct (t ++ [kv]) eqn:E; [destruct t; discriminate|exact IH].
  Qed.

  Lemma bt_last_max m kv : sorted m -> bt_last m = Some kv ->
    In kv m /\ forall k v, In (k, v) m -> k <= fst kv.
  Proof.
    destruct m as [|x t]; [discriminate|].
    destruct (exists_last (l := x :: t) ltac:(discriminate)) as (l & last & E).
    rewrite E, bt_last_app. intros HS [= ->]. split.
    - apply in_or_app. right; left; reflexivity.
    - apply sorted_app_iff in HS. destruct HS as (_ & _ & H).
      intros k v Hin. apply in_app_or in Hin. destruct Hin as [Hin|[->|[]]]; [|cbn; lia].
      destruct kv as [k2 v2]. cbn. pose proof (H _ _ _ _ Hin ltac:(left; reflexivity)). lia.
  Qed.

  Lemma bt_last_none m : bt_last m = None -> m = [].
  Proof.
    destruct m as [|x t]; [reflexivity|].
    destruct (exists_last (l := x :: t) ltac:(discriminate)) as (l & last & E).
    rewrite E, bt_last_app. discriminate.
  Qed.

  Lemma in_values_get v m : sorted m -> In v (bt_values m) -> exists k, bt_get k m = Some v.
  Proof.
    intros HS H. apply in_map_iff in H. destruct H as ([k v'] & <- & Hin).
    exists k. apply in_bt_get; assumption.
  Qed.

  Lemma get_in_values k v m : bt_get k m = Some v -> In v (bt_values m).
  Proof. intros H. apply bt_get_in in H. apply in_map_iff. exists (k, v). auto. Qed.

  Lemma values_length m : length (bt_values m) = length m.
  Proof. apply map_length. Qed.
End Facts.
