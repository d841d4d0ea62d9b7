(** Walking a stack by looking addresses up (C142). *)
From Verif Require Export RepairedFacts WalkLookSpec.
From Verif Require Import WalkFacts.
From Verif Require Import RoundFacts SectionFacts LookupFacts LookupConv StdConv.

(** ** Walks only depend on what is told *)

Lemma sf_step_ext w t t' x y : (forall a u, t a u <-> t' a u) -> sf_step w t x y -> sf_step w t' x y.
Proof. intros H (u & b & c & o & v & H0 & H1). exists u, b, c, o, v. split; [apply H, H0|exact H1]. Qed.

Lemma walk_ext w t t' : (forall a u, t a u <-> t' a u) -> forall x l, walk (sf_step w t) x l -> walk (sf_step w t') x l.
Proof. intros H x l HW. induction HW; [constructor|]. econstructor; [|exact IHHW]. eapply sf_step_ext; [exact H|assumption]. Qed.

Lemma same_walks_ext w a says t t' : (forall x u, t x u <-> t' x u) -> same_walks w a says t -> same_walks w a says t'.
Proof.
  intros H [H1 H2]. assert (H' : forall x u, t' x u <-> t x u) by (intros; symmetry; apply H). split.
  - intros x y l Hp Hw. destruct (H1 x y l Hp Hw) as (l1 & l2 & m & E & Hm & HF & HO). exists l1, l2, m. split; [exact E|].
    split; [eapply walk_ext; [exact H|exact Hm]|]. split; [exact HF|]. destruct HO as [HO|(r & c & P1 & P2 & P3)]; [left; exact HO|].
    right. exists r, c. split; [exact P1|]. split; [exact P2|]. intros z Hz. apply (P3 z). eapply sf_step_ext; [exact H'|exact Hz].
  - intros Hk x y m Hp Hm. apply (H2 Hk x y m Hp). eapply walk_ext; [exact H'|exact Hm].
Qed.

(** ** Sections of ordinary functions *)

Section Ordinary.
  Variables (md md' : mode) (e : endian) (s : sfb) (bs : bytes) (sf : sframe).
  Hypothesis Hr : sfb_reach md s.
  Hypothesis B : build md e s = Ok bs.
  Hypothesis HO : forall b, In b (fdes_of s) -> ordinary_function b /\ rows_inside b.
  Hypothesis Hmd : wf_mode md'.
  Hypothesis Hsl : rust_slice md' bs.
  Hypothesis HL : load md' e bs = Ok sf.

  Lemma section_lib a u : section_says md' e sf a u <-> exists k, lib_says md' e sf a k u.
  Proof.
    assert (HP : forall en, In en (all_fdes sf) -> en_fdetype en = PPcInc).
    { destruct (built_is md md' e s bs sf Hr B Hmd Hsl HL) as (W & T & ->). intros en Hen. destruct (built_entries e s W T) as [HLen HE].
      destruct (In_nth_error _ _ Hen) as (j & Hj). destruct (nth_error (fdes_of s) j) as [c|] eqn:Ec.
      2:{ apply nth_error_None in Ec. assert (j < length (all_fdes (built_sf e s)))%nat by (apply nth_error_Some; congruence). lia. }
      rewrite (HE j c Ec) in Hj. injection Hj as <-. destruct (built_same e s j c) as (_ & _ & E3 & _). rewrite E3. unfold pub_type.
      destruct (HO c (nth_error_In _ _ Ec)) as [[-> _] _]. reflexivity. }
    split.
    - intros (en & good & fr & H1 & H2 & H3 & H4 & H5 & H6 & H7). exists (en_pauth_key en), en, good, (a - en_start_address en), fr.
      split; [exact H1|]. split; [exact H2|]. split; [exact H3|]. split; [unfold lib_offset; rewrite (HP en H1); reflexivity|].
      split; [exact H4|]. split; [lia|]. split; [|split; [reflexivity|exact H7]]. intros fr' Hf Hle. apply H6; [exact Hf|lia].
    - intros (k & en & good & x & fr & H1 & H2 & H3 & H4 & H5 & H6 & H7 & _ & H8). unfold lib_offset in H4. rewrite (HP en H1) in H4.
      injection H4 as <-. exists en, good, fr. split; [exact H1|]. split; [exact H2|]. split; [exact H3|]. split; [exact H5|]. split; [lia|].
      split; [|exact H8]. intros fr' Hf Hle. apply H7; [exact Hf|lia].
  Qed.

  Lemma repaired_ordinary a u : in_i32 a -> (lookup_with all_repairs md' e sf a = Ok (Some u) <-> section_says md' e sf a u).
  Proof.
    intros Ha. rewrite section_lib. apply (repaired_lib md md' e s bs sf a Hr B Hmd Hsl HL Ha).
    intros b Hb _. destruct (HO b Hb) as [[H _] HI]. split; [exact HI|]. rewrite H. discriminate.
  Qed.

  Lemma said_inside a u : section_says md' e sf a u -> exists b, In b (fdes_of s) /\ in_range (fb_start b) (fb_size b) a.
  Proof.
    intros (en & good & fr & Hen & Hin & _). destruct (built_is md md' e s bs sf Hr B Hmd Hsl HL) as (W & T & ->).
    destruct (built_entries e s W T) as [HLen HE]. destruct (In_nth_error _ _ Hen) as (j & Hj).
    destruct (nth_error (fdes_of s) j) as [c|] eqn:Ec.
    2:{ apply nth_error_None in Ec. assert (j < length (all_fdes (built_sf e s)))%nat by (apply nth_error_Some; congruence). lia. }
    rewrite (HE j c Ec) in Hj. injection Hj as <-. destruct (built_same e s j c) as (F1 & F2 & _). rewrite F1, F2 in Hin.
    exists c. split; [exact (nth_error_In _ _ Ec)|exact Hin].
  Qed.

  Lemma said_i32 a u : within_i32 s -> section_says md' e sf a u -> in_i32 a.
  Proof.
    intros HW H. destruct (said_inside a u H) as (b & Hb & Hin). specialize (HW b Hb).
    pose proof (sfb_reach_wf _ _ Hr) as W. pose proof (wf_fdes _ W) as WF. rewrite Forall_forall in WF. destruct (WF b Hb) as [_ Hs _ _ _ _ _].
    unfold in_i32, in_range in *. lia.
  Qed.

  Lemma repaired_looked_up a u : within_i32 s -> (section_says md' e sf a u <-> looked_up all_repairs md' e sf a u).
  Proof.
    intros HW. split.
    - intros H. pose proof (said_i32 a u HW H) as Ha. split; [exact Ha|]. apply repaired_ordinary; assumption.
    - intros [Ha H]. apply repaired_ordinary; assumption.
  Qed.
End Ordinary.

(** ** Converted programs *)

Theorem conv_look_walks md md' md'' op eh s e bs column w :
  eh_typed eh -> dwarf2sframe md op eh = Ok s -> build md' e s = Ok bs -> wf_mode md'' -> rust_slice md'' bs -> within_i32 s ->
  (forall f, last_at eh f -> rows_disjoint f /\ rows_cover f /\
     forall r, In r (wide_rows f) -> ~ clash (op_arch op) (fixed_ra_of op eh) r /\ plain_row (op_arch op) r (column f)) ->
  exists sf, load md'' e bs = Ok sf /\
    same_walks w (op_arch op) (dw_says eh column) (looked_up all_repairs md'' e sf).
Proof.
  intros Ht H B Hm Hs HW HF. destruct (conv_ordinary md md' op eh s e bs Ht H B) as (HR & _ & HO).
  destruct (conv_walks md md' md'' op eh s e bs column w Ht H B Hm Hs HF) as (sf & HL & HS). exists sf. split; [exact HL|].
  eapply same_walks_ext; [|exact HS]. intros a u. apply (repaired_looked_up md' md'' e s bs sf HR B HO Hm Hs HL a u HW).
Qed.

Theorem v1_look_walks md md' md'' p eh s e bs column w :
  eh_typed eh -> v1_convert md p (eh_entries eh) = Ok s -> build md' e s = Ok bs -> wf_mode md'' -> rust_slice md'' bs -> within_i32 s ->
  (forall f, last_at eh f -> rows_disjoint f /\ rows_cover f /\
     forall r, In r (dw_rows_of f) -> wide r /\ ~ v1_clash r /\ plain_row Amd64 r (column f) /\ plain_fp r) ->
  exists sf, load md'' e bs = Ok sf /\
    same_walks w Amd64 (dw_says eh column) (looked_up all_repairs md'' e sf).
Proof.
  intros Ht H B Hm Hs HW HF. destruct (v1_ordinary md md' p (eh_entries eh) s e bs Ht H B) as (HR & _ & HO).
  destruct (v1_walks md md' md'' p eh s e bs column w Ht H B Hm Hs HF) as (sf & HL & HS). exists sf. split; [exact HL|].
  eapply same_walks_ext; [|exact HS]. intros a u. apply (repaired_looked_up md' md'' e s bs sf HR B HO Hm Hs HL a u HW).
Qed.

(** ** The look-ups as they are *)

(** Where all rows start within 127 bytes of their functions and the first at the start, a
    walk applies one and the same rule in every frame. *)
Theorem conv_look_one_rule md md' md'' op eh s e bs w :
  eh_typed eh -> dwarf2sframe md op eh = Ok s -> (forall f, In f (functions (entries_of eh)) -> rows_near f) ->
  build md' e s = Ok bs -> wf_mode md'' -> rust_slice md'' bs -> overflow_checks md'' = false ->
  exists sf u, load md'' e bs = Ok sf /\
    forall x l, walk (sf_step w (looked_up no_repairs md'' e sf)) x l -> walk (sf_step w (fun _ v => v = u)) x l.
Proof.
  intros Ht H HN B Hm Hs HM. destruct (conv_one_answer md md' md'' op eh s e bs Ht H HN B Hm Hs) as (sf & u & HL & HU).
  exists sf, u. split; [exact HL|]. intros x l HW. induction HW as [|x y l Hst HW IH]; [constructor|]. econstructor; [|exact IH].
  destruct Hst as (v & b & c & o & z & [Ha H0] & H1). exists v, b, c, o, z. split; [|exact H1].
  rewrite lookup_unrepaired in H0. destruct (HU _ Ha (or_introl HM)) as [E|E]; congruence.
Qed.

(** A section of one function with one row: looking up works. *)
Lemma one_row_looked_up md md' e s bs sf : sfb_reach md s -> build md e s = Ok bs ->
  (forall b, In b (fdes_of s) -> ordinary_function b /\ rows_inside b) ->
  wf_mode md' -> rust_slice md' bs -> load md' e bs = Ok sf -> overflow_checks md' = false -> only_one_row s ->
  forall a u, looked_up no_repairs md' e sf a u <-> looked_up all_repairs md' e sf a u.
Proof.
  intros HR B HO Hm Hs HL HM (b & r & E1 & E2 & E3 & HT & HA) a u.
  assert (Hb : In b (fdes_of s)) by (rewrite E1; left; reflexivity). destruct (HO b Hb) as [[O1 O2] HI].
  assert (Hrep : fb_rep_size b <> Some 0) by (rewrite O1; discriminate).
  unfold looked_up. rewrite lookup_unrepaired.
  assert (HX : in_i32 a -> (lookup md' e sf a = Ok (Some u) <-> asked_at s a u)).
  { intros Ha. destruct (Z_le_dec (fb_start b) a) as [Hle|Hle].
    2:{ rewrite (lookup_outside md md' e s bs sf a HR B Hm Hs HL Ha (or_introl HM)).
        - split; [discriminate|]. intros (c & q & Hc & Hin & _). rewrite E1 in Hc. destruct Hc as [<-|[]]. unfold in_range in Hin. lia.
        - intros c Hc. rewrite E1 in Hc. destruct Hc as [<-|[]]. unfold in_range. lia. }
    destruct (Z_lt_dec a (fb_start b + fb_size b)) as [Hlt|Hlt].
    2:{ rewrite (lookup_outside md md' e s bs sf a HR B Hm Hs HL Ha (or_introl HM)).
        - split; [discriminate|]. intros (c & q & Hc & Hin & _). rewrite E1 in Hc. destruct Hc as [<-|[]]. unfold in_range in Hin. lia.
        - intros c Hc. rewrite E1 in Hc. destruct Hc as [<-|[]]. unfold in_range. lia. }
    assert (Hin : in_range (fb_start b) (fb_size b) a) by (unfold in_range; lia).
    pose proof (lookup_single md md' e s bs sf a b HR B Hm Hs HL Ha (or_introl HM) E1 HI Hrep Hin) as HSg.
    rewrite E2 in HSg. destruct HSg as [_ HSg].
    assert (H0 : 0 <= offset_in b a) by (unfold offset_in; rewrite O1; lia).
    destruct (HSg ltac:(lia)) as [(v & Hv & Hvi) _]. assert (v = intended (sb_options s) r) as -> by (apply Hvi; auto).
    rewrite Hv. split.
    - intros [= <-]. exists b, r. split; [exact Hb|]. split; [exact Hin|]. split; [|reflexivity]. rewrite E2.
      split; [left; reflexivity|]. split; [lia|]. intros q [<-|[]] _. lia.
    - intros (c & q & Hc & _ & (Hq & _) & <-). rewrite E1 in Hc. destruct Hc as [<-|[]]. rewrite E2 in Hq. destruct Hq as [<-|[]]. reflexivity. }
  assert (HY : in_i32 a -> (lookup_with all_repairs md' e sf a = Ok (Some u) <-> asked_at s a u)).
  { intros Ha. apply (repaired_built md md' e s bs sf a HR B Hm Hs HL Ha). intros c Hc _. rewrite E1 in Hc. destruct Hc as [<-|[]].
    split; [exact HI|]. split; [exact Hrep|]. intros q Hq. rewrite E2 in Hq. destruct Hq as [<-|[]]. auto. }
  split; intros [Ha H]; (split; [exact Ha|]); [apply HY, HX|apply HX, HY]; assumption.
Qed.

Theorem conv_one_row_walks md md' md'' op eh s e bs column w :
  eh_typed eh -> dwarf2sframe md op eh = Ok s -> build md' e s = Ok bs -> wf_mode md'' -> rust_slice md'' bs -> within_i32 s ->
  overflow_checks md'' = false -> only_one_row s ->
  (forall f, last_at eh f -> rows_disjoint f /\ rows_cover f /\
     forall r, In r (wide_rows f) -> ~ clash (op_arch op) (fixed_ra_of op eh) r /\ plain_row (op_arch op) r (column f)) ->
  exists sf, load md'' e bs = Ok sf /\
    same_walks w (op_arch op) (dw_says eh column) (looked_up no_repairs md'' e sf).
Proof.
  intros Ht H B Hm Hs HW HM H1 HF. destruct (conv_ordinary md md' op eh s e bs Ht H B) as (HR & _ & HO).
  destruct (conv_look_walks md md' md'' op eh s e bs column w Ht H B Hm Hs HW HF) as (sf & HL & HS). exists sf. split; [exact HL|].
  eapply same_walks_ext; [|exact HS]. intros a u. symmetry. apply (one_row_looked_up md' md'' e s bs sf HR B HO Hm Hs HL HM H1).
Qed.
