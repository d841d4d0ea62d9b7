(** Concrete sections for the properties about unwinders that follow the
    specification. *)
From Verif Require Export StdConv SectionWitness LocalWitness CfiWitness ToolsWitness.

(** The rows an entry delivers. *)
Definition good_rows (md : mode) (e : endian) (en : entry) : list fre :=
  flat_map (fun x : fre_item => match x with inl a => [a] | inr _ => [] end) (get_ok [] (all_fres md e en)).
Lemma good_rows_eq md e en good : all_fres md e en = Ok (map inl good) -> good = good_rows md e en.
Proof.
  intros H. unfold good_rows. rewrite H. cbn [get_ok]. clear H. induction good as [|r t IH]; [reflexivity|].
  cbn. rewrite <- IH. reflexivity.
Qed.

(** ** Built sections *)

(** The second function of the sample with blocks of 16 bytes, and signed with key B. *)
Definition blocks : fdb := fdb_pcmask 16 demo_f1.
Definition signed : fdb := fdb_set_pauth KeyB demo_f1.
Definition blocks_sfb : sfb := get_ok (sfb_new options_new) (add_fdes (sfb_new options_new) [blocks]).
Definition signed_sfb : sfb := get_ok (sfb_new options_new) (add_fdes (sfb_new options_new) [signed]).
Definition blocks_bytes (e : endian) : bytes := get_ok [] (build rel64 e blocks_sfb).
Definition signed_bytes (e : endian) : bytes := get_ok [] (build rel64 e signed_sfb).

Lemma blocks_sized md : sfb_sized md blocks_sfb.
Proof.
  eapply (ss_fde md (sfb_new options_new) blocks); [apply ss_new, or_new| |vm_compute; reflexivity].
  apply bs_pcmask; [in_range|apply demo_f1_sized].
Qed.
Lemma signed_sized md : sfb_sized md signed_sfb.
Proof.
  eapply (ss_fde md (sfb_new options_new) signed); [apply ss_new, or_new| |vm_compute; reflexivity].
  apply bs_pauth, demo_f1_sized.
Qed.

Definition first_row : unwind := Unwind Sp false (Some 8) (Some (-8)) (Some (-16)).
Definition second_row : unwind := Unwind Sp false (Some 16) (Some (-8)) (Some (-16)).

Theorem blocks_silent e :
  sfb_reach rel64 blocks_sfb /\ build rel64 e blocks_sfb = Ok (blocks_bytes e) /\
  asked_with_key blocks_sfb 0x104 KeyA second_row /\
  forall a k u, ~ std_says e (blocks_bytes e) a k u.
Proof.
  assert (HR : sfb_reach rel64 blocks_sfb) by apply (sfb_sized_reach rel64), blocks_sized.
  assert (HB : build rel64 e blocks_sfb = Ok (blocks_bytes e)) by (destruct e; vm_compute; reflexivity).
  split; [exact HR|]. split; [exact HB|]. split.
  - exists blocks, (row3 4 16 (-8) (-16)). split; [vm_compute; auto|]. split; [vm_compute; split; [discriminate|reflexivity]|].
    split; [in_effect_by_cases|]. split; reflexivity.
  - intros a k u H. pose proof H as (_ & _ & _ & i & rows & x & r & Hi & Hr & _).
    assert (HO : forall b, In b (fdes_of blocks_sfb) -> b = blocks) by (intros b Hb; vm_compute in Hb; destruct Hb as [<-|[]]; reflexivity).
    assert (Es : fb_start blocks = 0x100) by reflexivity. assert (Ez : fb_size blocks = 16) by reflexivity.
    assert (X : in_range (fb_start blocks) (fb_size blocks) a).
    { destruct (Z_lt_ge_dec a 0x100); [|destruct (Z_lt_ge_dec a 0x110)]; [exfalso| |exfalso].
      1,3: apply (built_std_outside rel64 e blocks_sfb _ HR HB a k u); [|exact H]; intros b Hb; rewrite (HO b Hb), Es, Ez; unfold in_range; lia.
      rewrite Es, Ez. unfold in_range; lia. }
    apply (built_std rel64 e blocks_sfb _ HR HB a k u blocks) in H; [|vm_compute; auto|exact X].
    destruct H as ([O _] & _). discriminate.
Qed.

Theorem signed_silent e :
  sfb_reach rel64 signed_sfb /\ build rel64 e signed_sfb = Ok (signed_bytes e) /\
  asked_with_key signed_sfb 0x104 KeyB second_row /\
  forall a k u, ~ std_says e (signed_bytes e) a k u.
Proof.
  assert (HR : sfb_reach rel64 signed_sfb) by apply (sfb_sized_reach rel64), signed_sized.
  assert (HB : build rel64 e signed_sfb = Ok (signed_bytes e)) by (destruct e; vm_compute; reflexivity).
  split; [exact HR|]. split; [exact HB|]. split.
  - exists signed, (row3 4 16 (-8) (-16)). split; [vm_compute; auto|]. split; [vm_compute; split; [discriminate|reflexivity]|].
    split; [in_effect_by_cases|]. split; reflexivity.
  - intros a k u H. pose proof H as (_ & _ & _ & i & rows & x & r & Hi & Hr & _).
    assert (HO : forall b, In b (fdes_of signed_sfb) -> b = signed) by (intros b Hb; vm_compute in Hb; destruct Hb as [<-|[]]; reflexivity).
    assert (Es : fb_start signed = 0x100) by reflexivity. assert (Ez : fb_size signed = 16) by reflexivity.
    assert (X : in_range (fb_start signed) (fb_size signed) a).
    { destruct (Z_lt_ge_dec a 0x100); [|destruct (Z_lt_ge_dec a 0x110)]; [exfalso| |exfalso].
      1,3: apply (built_std_outside rel64 e signed_sfb _ HR HB a k u); [|exact H]; intros b Hb; rewrite (HO b Hb), Es, Ez; unfold in_range; lia.
      rewrite Es, Ez. unfold in_range; lia. }
    apply (built_std rel64 e signed_sfb _ HR HB a k u signed) in H; [|vm_compute; auto|exact X].
    destruct H as ([_ O] & _). discriminate.
Qed.

(** The sample itself is fine. *)
Theorem demo_std e : sfb_reach rel64 demo_sfb /\ build rel64 e demo_sfb = Ok (demo e) /\
  (forall b, In b (fdes_of demo_sfb) -> ordinary_function b) /\
  (forall b r, In b (fdes_of demo_sfb) -> In r (rows_of b) -> ~ tied r /\ ~ ambiguous (sb_options demo_sfb) r) /\
  std_says e (demo e) 0x102 KeyA first_row /\ std_says e (demo e) 0x104 KeyA second_row /\
  forall k u, ~ std_says e (demo e) 0x201 k u.
Proof.
  assert (HR : sfb_reach rel64 demo_sfb) by apply (sfb_sized_reach rel64), demo_sized.
  assert (HB : build rel64 e demo_sfb = Ok (demo e)) by (destruct e; vm_compute; reflexivity).
  assert (HO : forall b, In b (fdes_of demo_sfb) -> ordinary_function b).
  { intros b Hb. vm_compute in Hb. destruct Hb as [<-|[<-|[]]]; split; reflexivity. }
  destruct injective_case as (_ & _ & HT & _).
  pose proof (built_std_all rel64 e demo_sfb _ HR HB HO HT) as HA.
  split; [exact HR|]. split; [exact HB|]. split; [exact HO|]. split; [exact HT|]. split; [|split].
  - apply HA. exists demo_f1, (row3 0 8 (-8) (-16)). split; [vm_compute; auto|]. split; [vm_compute; split; [discriminate|reflexivity]|].
    split; [in_effect_by_cases|]. split; reflexivity.
  - apply HA. exists demo_f1, (row3 4 16 (-8) (-16)). split; [vm_compute; auto|]. split; [vm_compute; split; [discriminate|reflexivity]|].
    split; [in_effect_by_cases|]. split; reflexivity.
  - intros k u H. apply HA in H. destruct H as (b & r & Hb & Hr & (H1 & H2 & _) & _). vm_compute in Hb.
    destruct Hb as [<-|[<-|[]]]; [destruct Hr as [_ Hr]; vm_compute in Hr; discriminate|].
    vm_compute in H1. destruct H1 as [<-|[]]. vm_compute in H2. apply H2. reflexivity.
Qed.

(** ** Sections of other producers *)

(** The single function of [single], as another producer writes it: with blocks of 8
    bytes, with key B, and cut short in front of its second row. *)
Definition masked (e : endian) : bytes := set_byte 45 x08 (set_byte 44 x10 (single e)).
Definition keyed_b (e : endian) : bytes := set_byte 44 x20 (single e).
Definition cut_short (e : endian) : bytes :=
  set_byte (match e with LE => 32 | BE => 35 end) x04 (single e).
Definition masked_sf (e : endian) : sframe := get_ok dummy_sf (load rel64 e (masked e)).
Definition keyed_b_sf (e : endian) : sframe := get_ok dummy_sf (load rel64 e (keyed_b e)).
Definition cut_short_sf (e : endian) : sframe := get_ok dummy_sf (load rel64 e (cut_short e)).

Lemma std_two_rows e : exists rest, spec_rows_at e 1 [x00; x07; x08; xf8; xf0; x04; x07; x10; xf8; xf0]
  [SpecRow 0 true false [8; -8; -16]; SpecRow 4 true false [16; -8; -16]] rest.
Proof.
  exists []. cbn [spec_rows_at]. exists [x04; x07; x10; xf8; xf0]. split.
  - exists [x00], x07, 1, [[x08]; [xf8]; [xf0]]. destruct e; repeat apply conj; try (vm_compute; first [reflexivity|discriminate]); repeat constructor.
  - exists []. split; [|reflexivity]. exists [x04], x07, 1, [[x10]; [xf8]; [xf0]].
    destruct e; repeat apply conj; try (vm_compute; first [reflexivity|discriminate]); repeat constructor.
Qed.

Ltac std_case e i row :=
  split; [destruct e; vm_compute; reflexivity|]; split; [destruct e; vm_compute; reflexivity|];
  split; [destruct e; vm_compute; intuition discriminate|];
  exists 0, [SpecRow 0 true false [8; -8; -16]; SpecRow 4 true false [16; -8; -16]], i, row;
  split; [destruct e; (vm_compute; split; [discriminate|reflexivity])|];
  split; [destruct e; (vm_compute; split; [discriminate|reflexivity])|];
  split; [destruct (std_two_rows e) as [rest Hrest]; exists 1, rest; split; [destruct e; reflexivity|];
          split; [destruct e; reflexivity|]; destruct e; exact Hrest|];
  split; [destruct e; reflexivity|]; split; [|split; destruct e; reflexivity];
  split; [cbn; auto|]; split; [cbn; lia|];
  let r := fresh in let H := fresh in intros r H; cbn in H;
  repeat (destruct H as [<-|H]; [cbn; lia|]); destruct H.

Ltac lib_case e :=
  let k := fresh "k" in let u := fresh "u" in intros k u;
  intros (en & good & x & fr & Hen & Hr & HF & Hx & Hin & Hle & Hmax & Hk & Hu);
  pose proof (good_rows_eq _ _ _ _ HF) as HG;
  destruct e; vm_compute in Hen; (destruct Hen as [<-|[]]); vm_compute in HG; subst good.

Theorem masked_misread e :
  load rel64 e (masked e) = Ok (masked_sf e) /\ std_says e (masked e) 0x108 KeyA first_row /\
  forall k u, lib_says rel64 e (masked_sf e) 0x108 k u -> k = KeyB /\ u = second_row.
Proof.
  split; [destruct e; vm_compute; reflexivity|]. split; [std_case e 0 (SpecRow 0 true false [8; -8; -16])|].
  lib_case e; vm_compute in Hx; injection Hx as <-; vm_compute in Hk; (split; [congruence|]);
    (destruct Hin as [<-|[<-|[]]]; [exfalso|rewrite <- Hu; vm_compute; reflexivity]);
    (eapply Hmax; [right; left; reflexivity|vm_compute; discriminate|vm_compute; reflexivity]).
Qed.

Theorem key_misread e :
  load rel64 e (keyed_b e) = Ok (keyed_b_sf e) /\ std_says e (keyed_b e) 0x104 KeyB second_row /\
  forall k u, lib_says rel64 e (keyed_b_sf e) 0x104 k u -> k = KeyA.
Proof.
  split; [destruct e; vm_compute; reflexivity|]. split; [std_case e 4 (SpecRow 4 true false [16; -8; -16])|].
  lib_case e; vm_compute in Hk; congruence.
Qed.

Theorem cut_unread e :
  load rel64 e (cut_short e) = Ok (cut_short_sf e) /\ std_says e (cut_short e) 0x102 KeyA first_row /\
  forall k u, ~ lib_says rel64 e (cut_short_sf e) 0x102 k u.
Proof.
  split; [destruct e; vm_compute; reflexivity|]. split; [std_case e 2 (SpecRow 0 true false [8; -8; -16])|].
  lib_case e; vm_compute in HF; discriminate.
Qed.

(** Reserved bits of the info byte and padding that this library never sets. *)
Definition foreign (e : endian) : bytes := set_byte 46 xff (set_byte 44 x40 (single e)).
Definition foreign_sf (e : endian) : sframe := get_ok dummy_sf (load rel64 e (foreign e)).

Theorem foreign_read e :
  rust_slice rel64 (foreign e) /\ load rel64 e (foreign e) = Ok (foreign_sf e) /\ spec_version (foreign e) = 2 /\
  (forall i, 0 <= i < spec_num_fdes e (foreign e) ->
     plain_info (spec_entry e (foreign e) i) /\ rows_end_inside e (foreign e) (spec_entry e (foreign e) i)) /\
  std_says e (foreign e) 0x104 KeyA second_row.
Proof.
  assert (HS : std_rows e (foreign e) (spec_entry e (foreign e) 0)
    [SpecRow 0 true false [8; -8; -16]; SpecRow 4 true false [16; -8; -16]]).
  { destruct (std_two_rows e) as [rest Hrest]. exists 1, rest. split; [destruct e; reflexivity|].
    split; [destruct e; reflexivity|]. destruct e; exact Hrest. }
  split; [destruct e; vm_compute; reflexivity|]. split; [destruct e; vm_compute; reflexivity|]. split; [destruct e; vm_compute; reflexivity|].
  split; [|std_case e 4 (SpecRow 4 true false [16; -8; -16])].
  intros i Hi. replace (spec_num_fdes e (foreign e)) with 1 in Hi by (destruct e; vm_compute; reflexivity).
  assert (i = 0) by lia. subst i. split; [destruct e; vm_compute; reflexivity|].
  intros rows HR. rewrite (std_rows_fun _ _ _ _ _ HR HS). destruct e; repeat constructor.
Qed.

(** ** Converted sections *)

Lemma push_std e :
  (exists st, cfi_at cie_amd fn_push 0x1010 = Some st /\ cs_cfa st = Some (CfaReg 6 16)) /\
  std_says e (push_bytes e) 0x1010 KeyA (Unwind Fp false (Some 16) (Some (-8)) (Some (-16))).
Proof.
  split; [eexists; split; vm_compute; reflexivity|].
  destruct (push_case e) as (P1 & _ & _ & P2 & _ & P3 & _).
  destruct (conv_ordinary rel64 rel64 amd eh_push push_sfb e _ P1 P2 P3) as (HR & _ & HO).
  assert (Hb : In (hd blocks (fdes_of push_sfb)) (fdes_of push_sfb)) by (left; reflexivity).
  apply (built_std rel64 e push_sfb _ HR P3 0x1010 KeyA _ _ Hb); [vm_compute; split; [discriminate|reflexivity]|].
  split; [apply (HO _ Hb)|]. split; [reflexivity|].
  exists (nth 2 (rows_of (hd blocks (fdes_of push_sfb))) (row3 0 0 0 0)).
  split; [in_effect_by_cases|destruct e; vm_compute; reflexivity].
Qed.

Lemma push_std_hyp f : last_at eh_push f -> (exists c, follows_dwarf c f) /\ rows_disjoint f /\
  forall r, In r (wide_rows f) -> ~ clash (op_arch amd) (fixed_ra_of amd eh_push) r.
Proof.
  intros H. assert (f = fn_push) by (apply push_last, H). subst f. split; [exists cie_amd; apply push_follows|]. split.
  - apply (follows_orderly cie_amd fn_push); [cbn; lia|apply push_follows].
  - destruct (push_case LE) as (_ & _ & _ & _ & _ & _ & _ & _ & _ & P). rewrite P. apply push_no_clash.
Qed.

Definition v1_push_sfb : sfb := Eval vm_compute in match v1_convert rel64 v1_any (eh_entries eh_push) with Ok s => s | _ => sfb_new options_new end.
Lemma v1_push_std e :
  ents_typed (eh_entries eh_push) /\ v1_convert rel64 v1_any (eh_entries eh_push) = Ok v1_push_sfb /\
  (exists bs, build rel64 e v1_push_sfb = Ok bs) /\
  forall f, v1_last (eh_entries eh_push) f -> (exists c, follows_dwarf c f) /\ forall r, In r (dw_rows_of f) -> ~ v1_clash r.
Proof.
  split; [typed_eh|]. split; [vm_compute; reflexivity|]. split; [destruct e; eexists; vm_compute; reflexivity|].
  intros f Hf. assert (f = fn_push) by (apply push_last; exact Hf). subst f. split; [exists cie_amd; apply push_follows|].
  intros r Hr. apply not_clashing_v1. vm_compute in Hr.
  repeat (destruct Hr as [<-|Hr]; [vm_compute; try exact I; split; discriminate|]). destruct Hr.
Qed.
