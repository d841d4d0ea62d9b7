(** What a function says does not depend on the other functions of its section (C146, C147). *)
From Verif Require Import BTreeFacts LookupFacts SectionFacts RoundFacts TripFacts StdFacts DebugFacts ReadRepairedSpec ReadRepairedFacts IterRepairedFacts.
From Verif Require Export PlaceSpec IterLook IterRepairedBuilt.

(** ** What is in a builder after a function was added *)

Section Added.
  Variables (md : mode) (s s1 : sfb) (b : fdb).
  Hypothesis Hr : sfb_reach md s.
  Hypothesis Hb : fdb_reach b.
  Hypothesis HA : sfb_fde s b = Ok s1.

  Lemma added_in : In b (fdes_of s1).
  Proof using HA.
    unfold sfb_fde in HA. destruct (options_eqb _ _); [|discriminate]. injection HA as <-. unfold fdes_of. cbn [sb_fdes].
    apply in_map_iff. exists (fb_start b, b). split; [reflexivity|apply insert_in].
  Qed.
  Lemma added_others c : In c (fdes_of s1) -> c = b \/ In c (fdes_of s).
  Proof using HA.
    unfold sfb_fde in HA. destruct (options_eqb _ _); [|discriminate]. injection HA as <-. unfold fdes_of. cbn [sb_fdes].
    intros H. apply in_map_iff in H. destruct H as ([k y] & Hy & Hin). cbn [snd] in Hy. subst y.
    apply in_insert in Hin. destruct Hin as [[= -> ->]|Hin]; [auto|]. right. apply in_map_iff. exists (k, c). auto.
  Qed.
  Lemma added_kept c : In c (fdes_of s) -> replaced s b c \/ In c (fdes_of s1).
  Proof using Hr HA.
    pose proof (sfb_reach_wf md s Hr) as W. intros H. unfold fdes_of in H. apply in_map_iff in H. destruct H as ([k y] & Hy & Hin).
    cbn [snd] in Hy. subst y. pose proof (sw_keyed _ W k c Hin) as Hk. pose proof (in_bt_get _ _ _ (sw_sorted _ W) Hin) as HG.
    destruct (Z.eq_dec k (fb_start b)) as [E|E]; [left; unfold replaced; congruence|right].
    unfold sfb_fde in HA. destruct (options_eqb _ _); [|discriminate]. injection HA as <-. unfold fdes_of. cbn [sb_fdes].
    apply in_map_iff. exists (k, c). split; [reflexivity|]. apply bt_get_in. rewrite bt_get_insert by apply W.
    replace (k =? fb_start b) with false by lia. exact HG.
  Qed.
End Added.

Lemma covered_or s a : (exists b, In b (fdes_of s) /\ in_range (fb_start b) (fb_size b) a) \/
  (forall b, In b (fdes_of s) -> ~ in_range (fb_start b) (fb_size b) a).
Proof.
  destruct (Exists_dec (fun b => in_range (fb_start b) (fb_size b) a) (fdes_of s)) as [HE|HE].
  - intros b. unfold in_range. destruct (Z_le_dec (fb_start b) a), (Z_lt_dec a (fb_start b + fb_size b)); [left; lia|right; lia..].
  - left. apply Exists_exists in HE. exact HE.
  - right. intros b Hb Hin. apply HE, Exists_exists. exists b. auto.
Qed.

Section Built.
  Context (md md' : mode) (e : endian) (s : sfb) (bs : bytes) (sf : sframe).
  Context (Hr : sfb_reach md s) (B : build md e s = Ok bs) (Hmd : wf_mode md') (Hsl : rust_slice md' bs) (HL : load md' e bs = Ok sf).

  Lemma fixed_as b : In b (fdes_of s) ->
    fixed_ra_offset sf = so_fixed_ra (fb_options b) /\ fixed_fp_offset sf = so_fixed_fp (fb_options b).
  Proof using All.
    intros Hb. destruct (built_is md md' e s bs sf Hr B Hmd Hsl HL) as (W & _ & ->).
    pose proof (sw_fdes _ W) as HF. rewrite Forall_forall in HF. destruct (HF b Hb) as [_ ->]. apply built_fixed, W.
  Qed.

  (** The repaired look-up inside a function. *)
  Lemma look_inside b a : In b (fdes_of s) -> in_range (fb_start b) (fb_size b) a -> in_i32 a ->
    if match fb_rep_size b with Some 0 => true | _ => false end
    then lookup_key lib_rfixes md' e sf a = Err (inr InvalidFdeRepBlockSize)
    else exists o, lookup_key lib_rfixes md' e sf a = Ok (option_map (fun fr => (fb_pauth b, observed sf fr)) o) /\
      option_map view_fre o = spec_last (offset_in b a) None (map written (rows_of b)).
  Proof using All.
    intros Hb Hin Ha. destruct (built_sorted md e s bs Hr B) as (Hf & HD & HN).
    assert (HLO : laid_out e bs) by (unfold laid_out; rewrite Hf; exact HD).
    destruct (built_is md md' e s bs sf Hr B Hmd Hsl HL) as (W & T & Hsf).
    destruct (built_entries e s W T) as [N1 X1]. apply In_nth_error in Hb. destruct Hb as [i Hb].
    destruct (built_same e s i b) as (E1 & E2 & _ & _ & E5 & _).
    pose proof (function_whole md' e bs sf Hmd Hsl HL a Ha HLO) as HFN.
    rewrite <- (function_same lib_rfixes md' sf a eq_refl eq_refl eq_refl) in HFN.
    unfold lookup_key. destruct (fde_for_address_whole lib_rfixes md' sf a) as [[en|]|er|]; try contradiction.
    - destruct HFN as [Hen Hin']. rewrite Hsf in Hen. apply In_nth_error in Hen. destruct Hen as [j Hen].
      destruct (nth_error (fdes_of s) j) as [c|] eqn:Hc.
      2:{ apply nth_error_None in Hc. assert (j < length (all_fdes (built_sf e s)))%nat by (apply nth_error_Some; congruence). lia. }
      rewrite (X1 j c Hc) in Hen. injection Hen as <-. destruct (built_same e s j c) as (F1 & F2 & _). rewrite F1, F2 in Hin'.
      assert (i = j) by exact (disjoint_starts md e s bs Hr B i j b c a Hb Hc Hin Hin'). subst j.
      assert (c = b) by congruence. subst c.
      pose proof (row_lib md md' e s bs sf Hr B Hmd Hsl HL i b a Hb Ha Hin) as HR.
      destruct (match fb_rep_size b with Some 0 => true | _ => false end).
      + rewrite HR. reflexivity.
      + destruct HR as (o & -> & Ho). exists o. split; [|exact Ho]. do 2 f_equal.
        change (pauth_key_with lib_rfixes (fde_info (en_fde (built_entry e s i b)))) with (en_pauth_key (built_entry e s i b)).
        rewrite E5. reflexivity.
    - exfalso. apply (HFN (built_entry e s i b)).
      + rewrite Hsf. apply (nth_error_In _ i), X1, Hb.
      + rewrite E1, E2. exact Hin.
  Qed.
  Lemma look_outside a : (forall b, In b (fdes_of s) -> ~ in_range (fb_start b) (fb_size b) a) -> in_i32 a ->
    lookup_key lib_rfixes md' e sf a = Ok None.
  Proof using All.
    intros Hout Ha. pose proof (built_answers md md' e s bs sf Hr B Hmd Hsl HL a Ha) as HX.
    destruct (lookup_key lib_rfixes md' e sf a) as [[[k u]|]|[z|er]|]; try contradiction; [|reflexivity|].
    - destruct HX as (b & r & (Hb & Hin & _) & _). exfalso. apply (Hout b Hb Hin).
    - destruct er; try contradiction. destruct HX as (b & Hb & Hin & _). exfalso. apply (Hout b Hb Hin).
  Qed.
End Built.

(** ** Two sections *)

Section Two.
  Variables (md1 md2 md1' md2' : mode) (e1 e2 : endian) (s1 s2 : sfb) (bs1 bs2 : bytes) (sf1 sf2 : sframe).
  Hypothesis R1 : sfb_reach md1 s1.
  Hypothesis B1 : build md1 e1 s1 = Ok bs1.
  Hypothesis M1 : wf_mode md1'.
  Hypothesis S1 : rust_slice md1' bs1.
  Hypothesis L1 : load md1' e1 bs1 = Ok sf1.
  Hypothesis R2 : sfb_reach md2 s2.
  Hypothesis B2 : build md2 e2 s2 = Ok bs2.
  Hypothesis M2 : wf_mode md2'.
  Hypothesis S2 : rust_slice md2' bs2.
  Hypothesis L2 : load md2' e2 bs2 = Ok sf2.

  Lemma observed_both b fr fr' : In b (fdes_of s1) -> In b (fdes_of s2) -> view_fre fr = view_fre fr' -> observed sf1 fr = observed sf2 fr'.
  Proof using All.
    intros H1 H2 HV. destruct (fixed_as _ _ _ _ _ _ R1 B1 M1 S1 L1 b H1) as [X1 Y1]. destruct (fixed_as _ _ _ _ _ _ R2 B2 M2 S2 L2 b H2) as [X2 Y2].
    apply DebugFacts.observed_view; congruence.
  Qed.

  (** A function says the same in both sections. *)
  Theorem placed_says b a k u : In b (fdes_of s1) -> In b (fdes_of s2) -> in_range (fb_start b) (fb_size b) a ->
    (lib_says md1' e1 sf1 a k u <-> lib_says md2' e2 sf2 a k u).
  Proof using All.
    intros H1 H2 Hin. rewrite (iter_inside md1 md1' e1 s1 bs1 sf1 R1 B1 M1 S1 L1 a b k u H1 Hin).
    rewrite (iter_inside md2 md2' e2 s2 bs2 sf2 R2 B2 M2 S2 L2 a b k u H2 Hin).
    split; intros (P1 & P2 & P3 & r & fr & P4 & P5 & P6); repeat (split; [assumption|]); exists r, fr; (split; [exact P4|split; [exact P5|]]).
    - rewrite <- P6. symmetry. apply (observed_both b fr fr H1 H2 eq_refl).
    - rewrite <- P6. apply (observed_both b fr fr H1 H2 eq_refl).
  Qed.
  Theorem placed_looked b a : In b (fdes_of s1) -> In b (fdes_of s2) -> in_range (fb_start b) (fb_size b) a -> in_i32 a ->
    lookup_key lib_rfixes md1' e1 sf1 a = lookup_key lib_rfixes md2' e2 sf2 a.
  Proof using All.
    intros H1 H2 Hin Ha. pose proof (look_inside md1 md1' e1 s1 bs1 sf1 R1 B1 M1 S1 L1 b a H1 Hin Ha) as X1.
    pose proof (look_inside md2 md2' e2 s2 bs2 sf2 R2 B2 M2 S2 L2 b a H2 Hin Ha) as X2.
    destruct (match fb_rep_size b with Some 0 => true | _ => false end); [congruence|].
    destruct X1 as (o1 & -> & O1), X2 as (o2 & -> & O2). rewrite <- O2 in O1.
    destruct o1 as [f1|], o2 as [f2|]; try discriminate; [|reflexivity]. cbn [option_map] in *. do 3 f_equal.
    apply (observed_both b f1 f2 H1 H2). congruence.
  Qed.

  (** Where the two builders have the same functions, the sections say the same. *)
  Lemma alike_at a : (forall b, in_range (fb_start b) (fb_size b) a -> In b (fdes_of s1) <-> In b (fdes_of s2)) ->
    (forall k u, lib_says md1' e1 sf1 a k u <-> lib_says md2' e2 sf2 a k u) /\
    (in_i32 a -> lookup_key lib_rfixes md1' e1 sf1 a = lookup_key lib_rfixes md2' e2 sf2 a).
  Proof using All.
    intros H. destruct (covered_or s1 a) as [(b & Hb & Hin)|HN].
    - split; [intros k u; apply (placed_says b); try assumption; apply (H b Hin), Hb|].
      intros Ha. apply (placed_looked b); try assumption. apply (H b Hin), Hb.
    - assert (HN2 : forall b, In b (fdes_of s2) -> ~ in_range (fb_start b) (fb_size b) a).
      { intros b Hb Hin. apply (HN b); [apply (H b Hin), Hb|exact Hin]. }
      split.
      + intros k u. split; intros X; exfalso.
        * apply (iter_outside md1 md1' e1 s1 bs1 sf1 R1 B1 M1 S1 L1 a k u HN X).
        * apply (iter_outside md2 md2' e2 s2 bs2 sf2 R2 B2 M2 S2 L2 a k u HN2 X).
      + intros Ha. rewrite (look_outside md1 md1' e1 s1 bs1 sf1 R1 B1 M1 S1 L1 a HN Ha).
        rewrite (look_outside md2 md2' e2 s2 bs2 sf2 R2 B2 M2 S2 L2 a HN2 Ha). reflexivity.
  Qed.
End Two.

(** ** A function added *)

Section One.
  Variables (md md' : mode) (e : endian) (s s1 : sfb) (b : fdb) (bs bs1 : bytes) (sf sf1 : sframe).
  Hypothesis Hr : sfb_reach md s.
  Hypothesis Hb : fdb_reach b.
  Hypothesis HA : sfb_fde s b = Ok s1.
  Hypothesis B0 : build md e s = Ok bs.
  Hypothesis B1 : build md e s1 = Ok bs1.
  Hypothesis M : wf_mode md'.
  Hypothesis S0 : rust_slice md' bs.
  Hypothesis S1 : rust_slice md' bs1.
  Hypothesis L0 : load md' e bs = Ok sf.
  Hypothesis L1 : load md' e bs1 = Ok sf1.

  Lemma added_alike a : ~ in_range (fb_start b) (fb_size b) a ->
    (forall c, replaced s b c -> ~ in_range (fb_start c) (fb_size c) a) ->
    (forall k u, lib_says md' e sf a k u <-> lib_says md' e sf1 a k u) /\
    (in_i32 a -> lookup_key lib_rfixes md' e sf a = lookup_key lib_rfixes md' e sf1 a).
  Proof using All.
    intros H1 H2. apply (alike_at md md md' md' e e s s1 bs bs1 sf sf1); try assumption; [apply (sr_fde md s b s1 Hr Hb HA)|].
    intros c Hin. split; intros Hc.
    - destruct (added_kept md s s1 b Hr HA c Hc) as [H|H]; [exfalso; apply (H2 c H Hin)|exact H].
    - destruct (added_others s s1 b HA c Hc) as [->|H]; [contradiction|exact H].
  Qed.
  Theorem added_says a : ~ in_range (fb_start b) (fb_size b) a ->
    (forall c, replaced s b c -> ~ in_range (fb_start c) (fb_size c) a) ->
    forall k u, lib_says md' e sf a k u <-> lib_says md' e sf1 a k u.
  Proof using All. intros H1 H2. apply (added_alike a H1 H2). Qed.
  Theorem added_looked a : ~ in_range (fb_start b) (fb_size b) a ->
    (forall c, replaced s b c -> ~ in_range (fb_start c) (fb_size c) a) ->
    in_i32 a -> lookup_key lib_rfixes md' e sf a = lookup_key lib_rfixes md' e sf1 a.
  Proof using All. intros H1 H2. apply (added_alike a H1 H2). Qed.
End One.

(** The look-ups as they are, outside all functions. *)
Theorem added_outside md md' e s s1 b bs bs1 sf sf1 : sfb_reach md s -> fdb_reach b -> sfb_fde s b = Ok s1 ->
  build md e s = Ok bs -> build md e s1 = Ok bs1 -> wf_mode md' -> rust_slice md' bs -> rust_slice md' bs1 ->
  load md' e bs = Ok sf -> load md' e bs1 = Ok sf1 -> forall a, in_i32 a -> near md' s a -> near md' s1 a ->
  (forall c, In c (fdes_of s) \/ In c (fdes_of s1) -> ~ in_range (fb_start c) (fb_size c) a) ->
  lookup md' e sf a = lookup md' e sf1 a.
Proof.
  intros Hr Hb HA B0 B1 M S0 S1 L0 L1 a Ha N0 N1 Hout. pose proof (sr_fde md s b s1 Hr Hb HA) as Hr1.
  rewrite (lookup_outside md md' e s bs sf a), (lookup_outside md md' e s1 bs1 sf1 a); auto.
Qed.
