(** More about the repaired converter: what follows from ConvRepairedWalk.v, and where it
    changes nothing. *)
From Verif Require Export ConvRepairedWalk.
From Verif Require Import ConvProps.

(** ** Errors (C51) *)

Theorem repaired_errors md op c eh : eh_typed eh ->
  (forall pre x post er, entries_of eh = pre ++ x :: post ->
     Forall (entry_faultless (op_arch op) (fixed_ra_of op eh) c) pre ->
     entry_fault (op_arch op) (fixed_ra_of op eh) c x er -> dwarf2sframe_repaired md op c eh = Err er) /\
  (forall s, dwarf2sframe_repaired md op c eh = Ok s ->
     ents_end (eh_entries eh) = None /\ (forall g, ~ In (DwBadFde g) (entries_of eh)) /\
     (forall f, In (DwGoodFde f) (entries_of eh) -> fits_section f /\ exists l, df_rows f = inl (DwRows l None)) /\
     (forall f, last_at eh f -> exists b, In b (fdes_of s) /\ fb_start b = df_start f /\ fb_size b = df_len f)).
Proof.
  intros Ht. destruct (repaired_outcome md op c eh Ht) as (H1 & H2 & _). split.
  - intros pre x post er He Hf Hx. apply H2. eapply sf_entry; eassumption.
  - intros s H. destruct (proj1 H1 (ex_intro _ s H)) as [HF HE]. rewrite Forall_forall in HF. split; [exact HE|].
    split; [intros g Hg; exact (HF _ Hg)|]. split.
    + intros f Hf. destruct (HF _ Hf) as [A (l & B & _)]. split; [exact A|]. exists l. exact B.
    + intros f Hf. destruct (xconv_has _ _ _ _ (xconverted_made _ _ _ _ (repaired_converted _ _ _ _ _ Ht H)) f Hf) as (b & Hb & HX).
      destruct (xbuilt_inv _ _ _ _ _ HX) as (_ & _ & _ & E1 & E2 & _). exists b. auto.
Qed.

(** ** Signed return addresses (C80) and link rows (C81) *)

Theorem repaired_marks md md' md'' op c eh s e bs : eh_typed eh -> dwarf2sframe_repaired md op c eh = Ok s ->
  build_repaired md' e s = Ok bs -> wf_mode md'' -> rust_slice md'' bs -> (forall f, last_at eh f -> rows_disjoint f) ->
  exists sf, load md'' e bs = Ok sf /\
    forall x r k, dw_says eh c x r k -> ~ inexpressible (op_arch op) r k ->
      exists u, looked_up_whole md'' e sf x u /\ (uw_mangled u = true <-> signed_row (op_arch op) r).
Proof.
  intros Ht H B Hm Hs Hg. destruct (repaired_end_to_end _ _ _ _ _ _ _ _ _ Ht H B Hm Hs Hg) as (sf & L & H1 & _).
  exists sf. split; [exact L|]. intros x r k Hx Hi. destruct (H1 _ _ _ Hx) as (u & Hu & Hc & _). exists u. split; [exact Hu|].
  destruct (express (op_arch op) k r) as [[[[[base m] cfa] ra] fp]|] eqn:E; [|apply express_none in E; contradiction].
  apply express_spec in E. rewrite (Hc _ _ _ _ _ E). cbn. exact (proj1 (proj2 (proj2 (proj2 (proj2 E))))).
Qed.

Theorem repaired_links md md' md'' op c eh s e bs : eh_typed eh -> dwarf2sframe_repaired md op c eh = Ok s ->
  build_repaired md' e s = Ok bs -> wf_mode md'' -> rust_slice md'' bs -> (forall f, last_at eh f -> rows_disjoint f) ->
  op_arch op = Aarch64 ->
  exists sf, load md'' e bs = Ok sf /\
    forall x r base cfa, dw_says eh c x r (reg_ra Aarch64) -> link_row r base cfa ->
      (dr_register r (reg_sp Aarch64) = RUndefined \/ dr_register r (reg_sp Aarch64) = RValOffset 0) ->
      exists m, looked_up_whole md'' e sf x (Unwind base m (Some cfa) None None) /\ (m = true <-> signed_row Aarch64 r).
Proof.
  intros Ht H B Hm Hs Hg Ha. destruct (repaired_end_to_end _ _ _ _ _ _ _ _ _ Ht H B Hm Hs Hg) as (sf & L & H1 & _).
  exists sf. split; [exact L|]. intros x r base cfa Hx (R1 & R2 & R3 & R4) Hsp.
  destruct (H1 _ _ _ Hx) as (u & Hu & Hc & _). rewrite Ha in Hc. exists (signed_here Aarch64 r). split; [|apply signed_here_spec].
  rewrite (Hc base (signed_here Aarch64 r) cfa None None) in Hu; [exact Hu|].
  unfold expressible. split; [exact R1|]. split; [exact R2|]. split; [exact Hsp|]. split; [reflexivity|].
  split; [apply signed_here_spec|]. split; [exact R4|]. split; [reflexivity|]. split; [reflexivity|exact R3].
Qed.

(** ** Where the converter is right already *)

Lemma ximg_img a c f r : plain_row a r c -> (forall base m cfa fp, ~ expressible a r c base m cfa None fp) ->
  ximg a c f r = img a f r.
Proof.
  intros Hp Hl. unfold ximg, img. destruct (classify a r) as [[[[base cfa] ra] fp]|] eqn:Ec.
  - apply classify_spec in Ec. assert (expressible a r c base false cfa (Some ra) fp) as HE.
    { destruct Hp as (P1 & P2 & P3); [exists base, cfa, ra, fp; exact Ec|].
      destruct Ec as (R1 & R2 & R3 & R4 & R5). unfold expressible. split; [exact R1|]. split; [exact R2|]. split; [exact P1|].
      split; [exact P2|]. split; [split; [discriminate|contradiction]|]. split; [exact R5|]. split; [exact R3|exact R4]. }
    apply express_spec in HE. rewrite HE. reflexivity.
  - destruct (express a c r) as [[[[[base m] cfa] [ra|]] fp]|] eqn:E; [| |reflexivity]; apply express_spec in E.
    + destruct E as (R1 & R2 & _ & _ & _ & R5 & R3 & R4). apply classify_none in Ec. exfalso. apply (Ec base cfa ra fp).
      unfold representable. auto.
    + exfalso. eapply Hl, E.
Qed.

Lemma rows_same md op c f : 0 <= df_start f <= i32_max -> forall l b b', Forall dw_row_typed l ->
  sorted (fb_fres b) -> keyed (fb_fres b) -> fb_size b = df_len f ->
  (forall r, In r l -> wide r -> plain_row (op_arch op) r c /\ forall base m cfa fp, ~ expressible (op_arch op) r c base m cfa None fp) ->
  convert_rows md op f l b = Ok b' -> convert_rows_with all_cfixes md op c f l b = Ok b'.
Proof.
  intros Hst. induction l as [|r t IH]; intros b b' Ht Hs Hk Hz Hr H; [cbn in *; congruence|].
  inversion Ht as [|? ? T1 T2]; subst. rewrite convert_rows_step in H by assumption. rewrite xrows_step.
  apply bind_ok in H. destruct H as (b1 & H1 & H2). unfold row_step in H1. unfold xstep.
  destruct (wideb r) eqn:Ew.
  - destruct (off f r <? 0); [destruct (overflow_checks md); discriminate|]. destruct (i32_max <=? off f r); [discriminate|].
    destruct (Hr r (or_introl eq_refl) (proj1 (wideb_spec r) Ew)) as [P1 P2]. rewrite (ximg_img _ _ _ _ P1 P2).
    destruct (fdb_row b (img (op_arch op) f r)) as [b2| |] eqn:Eb; [|discriminate|discriminate]. injection H1 as <-. cbn [bind].
    destruct (fdb_row_inv _ _ _ Hs Hk Eb) as (S & K & _ & _ & Z' & _).
    apply IH; [exact T2|exact S|exact K|congruence|intros q Hq; apply Hr; right; exact Hq|exact H2].
  - injection H1 as <-. cbn [bind]. apply IH; try assumption. intros q Hq; apply Hr; right; exact Hq.
Qed.

Lemma entries_same md op c : forall l s s', Forall dw_entry_typed l ->
  (forall f, In (DwGoodFde f) l -> fits_section f /\
    forall r, In r (wide_rows f) -> plain_row (op_arch op) r (c f) /\
      forall base m cfa fp, ~ expressible (op_arch op) r (c f) base m cfa None fp) ->
  convert_entries md op l s = Ok s' -> convert_entries_with all_cfixes md op c l s = Ok s'.
Proof.
  induction l as [|[|g|f] t IH]; intros s s' Ht Hf H; cbn [convert_entries convert_entries_with] in *; [congruence| |discriminate|].
  - inversion Ht; subst. apply IH; auto. intros g Hg. apply Hf. right. exact Hg.
  - inversion Ht as [|? ? T1 T2]; subst. apply bind_ok in H. destruct H as (s1 & H1 & H2).
    destruct (Hf f (or_introl eq_refl)) as ((F1 & F2) & F3). destruct T1 as (D1 & D2 & D3).
    assert (convert_fde_with all_cfixes md op c s f = Ok s1) as ->.
    { unfold convert_fde in H1. apply bind_ok in H1. destruct H1 as (_ & _ & H1).
      unfold convert_fde_with. cbn [fix_dump fix_end all_cfixes negb andb]. rewrite Bool.andb_false_r. cbn [bind].
      destruct (Z.ltb_spec i32_max (df_start f)); [lia|]. unfold in_u64 in *.
      destruct (Z.ltb_spec i32_max (df_len f)); [lia|]. cbn [orb]. destruct (Z.ltb_spec i32_max (df_start f + df_len f)); [lia|].
      destruct (df_rows f) as [rows|g] eqn:Er; [|discriminate]. apply bind_ok in H1. destruct H1 as (b1 & H1 & HM).
      rewrite (rows_same md op (c f) f (conj (proj1 D1) F1) (rows_list rows) _ b1); cbn [bind].
      - destruct (rows_end rows); [discriminate|]. destruct (op_merge_fres op);
          [|cbn [bind] in *; destruct (sfb_fde s b1) as [x|[]|]; [|discriminate]; cbn in *; congruence].
        apply bind_ok in HM. destruct HM as (b2 & -> & HM). cbn [as_before bind].
        destruct (sfb_fde s b2) as [x|[]|] eqn:Es; [|discriminate]. cbn in *. congruence.
      - unfold dw_rows_of in D3. rewrite Er in D3. exact D3.
      - apply sorted_nil.
      - intros ? ? [].
      - cbn. unfold as_u. apply Z.mod_small. unfold i32_max in *. lia.
      - intros r Hr Hw. apply F3. unfold wide_rows, dw_rows_of. rewrite Er. apply filter_In. split; [exact Hr|]. apply wideb_spec, Hw.
      - exact H1. }
    cbn [bind]. apply IH; auto. intros g Hg. apply Hf. right. exact Hg.
Qed.

Theorem conv_repaired_same md op c eh s : eh_typed eh -> conv_untouched op c eh -> dwarf2sframe md op eh = Ok s ->
  dwarf2sframe_repaired md op c eh = Ok s.
Proof.
  intros Ht Hu H. unfold dwarf2sframe, convert in H. unfold dwarf2sframe_repaired, dwarf2sframe_with.
  apply bind_ok in H. destruct H as (s2 & H & H3). apply bind_ok in H. destruct H as (s1 & H1 & H2).
  pose proof (entries_same md op c _ _ _ Ht Hu H1) as HE. unfold entries_of in HE. rewrite HE. cbn [bind].
  destruct (ents_end (eh_entries eh)); [discriminate|]. injection H2 as <-.
  destruct (op_merge_fdes op); [|cbn in *; congruence].
  destruct (of_fuel (merge_adjacent_fdes md s1)) eqn:E; try discriminate. cbn. congruence.
Qed.
