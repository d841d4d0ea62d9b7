(** Converted sections in the hands of an unwinder that follows the specification. *)
From Verif Require Export CfiFacts StdFacts.

(** ** Ordinary functions *)

Lemma info_plain b : ordinary_function b -> bits 3 3 (info_of b) = 0.
Proof.
  intros [H1 H2]. unfold info_of, start_width. rewrite H1, H2. set (m := fold_right _ _ _).
  destruct (m <=? 127); [|destruct (m <=? 32767)]; reflexivity.
Qed.

(** A built section of ordinary functions with their rows inside means the same to
    this library and to an unwinder that follows the specification. *)
Lemma ordinary_agree md md' e s bs sf : sfb_reach md s -> build md e s = Ok bs ->
  (forall b, In b (fdes_of s) -> ordinary_function b /\ rows_inside b) ->
  wf_mode md' -> rust_slice md' bs -> load md' e bs = Ok sf ->
  forall a k u, std_says e bs a k u <-> k = KeyA /\ section_says md' e sf a u.
Proof.
  intros HR HB HO Hm Hs HL a k u. destruct (built_layout md e s bs HR HB) as (_ & HV & _).
  assert (NF : spec_num_fdes e bs = zlen (fdes_of s)) by apply (trip_header md e s bs HR HB).
  assert (HP : forall i, 0 <= i < spec_num_fdes e bs -> exists b, In b (fdes_of s) /\
    spec_entry e bs i = descriptor (fdes_of s) (Z.to_nat i) b /\
    std_rows e bs (spec_entry e bs i) (map written (rows_of b))).
  { intros i Hi. destruct (nth_error (fdes_of s) (Z.to_nat i)) as [b|] eqn:E; [|apply nth_error_None in E; unfold zlen in NF; lia].
    exists b. assert (Hb : In b (fdes_of s)) by (apply nth_error_In in E; exact E). split; [exact Hb|].
    destruct (trip_table md e s bs _ b HR HB E) as (D & _). rewrite Z2Nat.id in D by lia. split; [exact D|].
    pose proof (built_std_rows md e s bs HR HB _ b E (proj1 (HO b Hb))) as HS. rewrite Z2Nat.id in HS by lia. exact HS. }
  assert (HG : forall i, 0 <= i < spec_num_fdes e bs -> plain_info (spec_entry e bs i) /\ rows_end_inside e bs (spec_entry e bs i)).
  { intros i Hi. destruct (HP i Hi) as (b & Hb & D & HS). destruct (HO b Hb) as [O I]. split.
    - unfold plain_info. rewrite D. apply info_plain, O.
    - intros rows HS'. rewrite (std_rows_fun _ _ _ _ _ HS' HS), D. apply Forall_map. exact I. }
  rewrite <- (lib_std md' e bs sf Hm Hs HL HV a k u) by auto.
  assert (HA : forall en, In en (all_fdes sf) -> lib_offset en a = Some (a - en_start_address en) /\ en_pauth_key en = KeyA).
  { intros en Hen. destruct (entry_at md' e bs sf Hm Hs HL en Hen) as (i & Hi & Hok & Hview & _).
    destruct (HG i Hi) as [Hp _]. destruct (plain_bits _ Hp) as (_ & B3 & B4 & _).
    assert (Hu : 0 <= sd_info (spec_entry e bs i) < 256) by (rewrite <- Hview; apply Hok).
    destruct (accessors_right e bs i en Hu Hview) as (_ & _ & A3 & A4 & _). unfold lib_offset.
    rewrite A3, A4, B3, B4. auto. }
  split.
  - intros (en & good & x & fr & Hen & Hr & HF & Hx & Hin & Hle & Hmax & Hk & Hu). destruct (HA en Hen) as [X1 X2].
    rewrite X1 in Hx. injection Hx as <-. split; [congruence|]. exists en, good, fr.
    split; [exact Hen|]. split; [exact Hr|]. split; [exact HF|]. split; [exact Hin|]. split; [lia|]. split; [|exact Hu].
    intros fr' H1 H2. apply Hmax; [exact H1|lia].
  - intros (-> & en & good & fr & Hen & Hr & HF & Hin & Hle & Hmax & Hu). destruct (HA en Hen) as [X1 X2].
    exists en, good, (a - en_start_address en), fr. split; [exact Hen|]. split; [exact Hr|]. split; [exact HF|]. split; [exact X1|].
    split; [exact Hin|]. split; [lia|]. split; [|auto]. intros fr' H1 H2. apply Hmax; [exact H1|lia].
Qed.

(** ** Both converters *)

Lemma conv_ordinary md md' op eh s e bs : eh_typed eh -> dwarf2sframe md op eh = Ok s -> build md' e s = Ok bs ->
  sfb_reach md' s /\ rust_slice rel64 bs /\ forall b, In b (fdes_of s) -> ordinary_function b /\ rows_inside b.
Proof.
  intros Ht H B. destruct (ConvProps.conv_functions md op eh s Ht H) as (_ & HF & _).
  pose proof (dwarf2sframe_converted _ _ _ _ Ht H) as HC.
  assert (HZ : sfb_sized md' s).
  { destruct HC as [_ Ho Ha]. destruct s as [o m]. cbn in *. subst o.
    eapply assembled_sized; [apply opts_reached|apply options_eq|exact Ha]. }
  destruct (sfb_sized_reach md' s HZ) as [HR HI]. rewrite Forall_forall in HI. split; [exact HR|]. split.
  - destruct (built md' e s bs HR B) as (W & -> & T & _). apply image_rel64; assumption.
  - intros b Hb. split; [|apply HI, Hb]. destruct (HF b Hb) as (f & _ & _ & _ & X). exact X.
Qed.

Lemma v1_ordinary md md' p ents s e bs : ents_typed ents -> v1_convert md p ents = Ok s -> build md' e s = Ok bs ->
  sfb_reach md' s /\ rust_slice rel64 bs /\ forall b, In b (fdes_of s) -> ordinary_function b /\ rows_inside b.
Proof.
  intros Ht H B. pose proof (v1_sized md md' p ents s Ht H) as HZ.
  destruct (sfb_sized_reach md' s HZ) as [HR HI]. rewrite Forall_forall in HI. split; [exact HR|]. split.
  - destruct (built md' e s bs HR B) as (W & -> & T & _). apply image_rel64; assumption.
  - intros b Hb. split; [|apply HI, Hb].
    assert (HW : sfb_wf s) by (eapply sfb_reach_wf, HR). destruct (v1_converted _ _ _ _ Ht H) as [Ho Ha].
    assert (G : bt_get (fb_start b) (sb_fdes s) = Some b) by (apply (wf_get s _ _ HW); auto).
    destruct (assembled_get _ v1_options _ _ eq_refl Ha _ _ G) as (g & _ & _ & _ & F4).
    destruct (built_inv _ v1_options _ _ eq_refl F4) as (_ & _ & _ & _ & _ & X). exact X.
Qed.

(** What an unwinder that follows the specification finds is what the DWARF says. *)
Theorem std_rows_preserved md md' op eh s e bs : eh_typed eh -> dwarf2sframe md op eh = Ok s -> build md' e s = Ok bs ->
  (forall f, last_at eh f -> rows_disjoint f /\
     forall r, In r (wide_rows f) -> ~ clash (op_arch op) (fixed_ra_of op eh) r) ->
  (forall a r, dwarf_says eh a r -> exists u, std_says e bs a KeyA u /\ matches (op_arch op) r u) /\
  (forall a k u, std_says e bs a k u ->
     exists f r, last_at eh f /\ in_range (df_start f) (df_len f) a /\ In r (wide_rows f) /\ dr_start r <= a) /\
  (forall a k k' u u', std_says e bs a k u -> std_says e bs a k' u' -> k = KeyA /\ k' = KeyA /\ u = u').
Proof.
  intros Ht H B Hgood. destruct (conv_ordinary md md' op eh s e bs Ht H B) as (HR & Hs & HO).
  destruct (ConvProps.conv_end_to_end md md' rel64 op eh s e bs Ht H B wf_rel64 Hs Hgood) as (sf & HL & P1 & P2 & P3).
  pose proof (ordinary_agree md' rel64 e s bs sf HR B HO wf_rel64 Hs HL) as HA. split; [|split].
  - intros a r Hr. destruct (P1 a r Hr) as (u & U1 & U2). exists u. split; [|exact U2]. apply HA. auto.
  - intros a k u Hu. apply HA in Hu. destruct Hu as [_ Hu]. apply (P2 a u Hu).
  - intros a k k' u u' Hu Hu'. apply HA in Hu. apply HA in Hu'. destruct Hu as [-> Hu], Hu' as [-> Hu'].
    split; [reflexivity|]. split; [reflexivity|]. apply (P3 a u u' Hu Hu').
Qed.

Theorem std_program_preserved md md' op eh s e bs : eh_typed eh -> dwarf2sframe md op eh = Ok s -> build md' e s = Ok bs ->
  (forall f, last_at eh f -> (exists c, follows_dwarf c f) /\
     forall r, In r (wide_rows f) -> ~ clash (op_arch op) (fixed_ra_of op eh) r) ->
  (forall c f x, last_at eh f -> follows_dwarf c f -> in_range (df_start f) (df_len f) x ->
     exists st u, cfi_at c f x = Some st /\ std_says e bs x KeyA u /\ matches (op_arch op) (as_row st) u /\
       forall k u', std_says e bs x k u' -> k = KeyA /\ u' = u) /\
  forall x k u, std_says e bs x k u -> exists f, last_at eh f /\ in_range (df_start f) (df_len f) x.
Proof.
  intros Ht H B Hgood. destruct (conv_ordinary md md' op eh s e bs Ht H B) as (HR & Hs & HO).
  destruct (program_preserved md md' rel64 op eh s e bs Ht H B wf_rel64 Hs Hgood) as (sf & HL & P1 & P2).
  pose proof (ordinary_agree md' rel64 e s bs sf HR B HO wf_rel64 Hs HL) as HA. split.
  - intros c f x Hf Hc Hx. destruct (P1 c f x Hf Hc Hx) as (st & u & U1 & U2 & U3 & U4). exists st, u.
    split; [exact U1|]. split; [apply HA; auto|]. split; [exact U3|]. intros k u' Hu. apply HA in Hu. destruct Hu as [-> Hu]. auto.
  - intros x k u Hu. apply HA in Hu. destruct Hu as [_ Hu]. apply (P2 x u Hu).
Qed.

Theorem std_v1_preserved md md' p ents s e bs : ents_typed ents -> v1_convert md p ents = Ok s -> build md' e s = Ok bs ->
  (forall f, v1_last ents f -> (exists c, follows_dwarf c f) /\ forall r, In r (dw_rows_of f) -> ~ v1_clash r) ->
  (forall c f x, v1_last ents f -> follows_dwarf c f -> in_range (df_start f) (df_len f) x ->
     exists st u, cfi_at c f x = Some st /\ std_says e bs x KeyA u /\
       (forall base cfa ra fp, v1_representable (as_row st) base cfa ra fp -> u = Unwind base false (Some cfa) (Some ra) fp) /\
       ((forall base cfa ra fp, ~ v1_representable (as_row st) base cfa ra fp) -> uw_cfa u = None /\ uw_mangled u = false) /\
       forall k u', std_says e bs x k u' -> k = KeyA /\ u' = u) /\
  forall x k u, std_says e bs x k u -> exists f, v1_last ents f /\ in_range (df_start f) (df_len f) x.
Proof.
  intros Ht H B Hgood. destruct (v1_ordinary md md' p ents s e bs Ht H B) as (HR & Hs & HO).
  destruct (v1_program_preserved md md' rel64 p ents s e bs Ht H B wf_rel64 Hs Hgood) as (sf & HL & P1 & P2).
  pose proof (ordinary_agree md' rel64 e s bs sf HR B HO wf_rel64 Hs HL) as HA. split.
  - intros c f x Hf Hc Hx. destruct (P1 c f x Hf Hc Hx) as (st & u & U1 & U2 & U3 & U4 & U5). exists st, u.
    split; [exact U1|]. split; [apply HA; auto|]. split; [exact U3|]. split; [exact U4|]. intros k u' Hu. apply HA in Hu. destruct Hu as [-> Hu]. auto.
  - intros x k u Hu. apply HA in Hu. destruct Hu as [_ Hu]. apply (P2 x u Hu).
Qed.
