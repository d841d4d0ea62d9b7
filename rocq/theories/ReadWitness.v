(** Computed counterexamples and wrapper lemmas for the reader properties. *)
From Verif Require Export Witness InfoFacts.

(** ** Accessors *)

Lemma accessors_right e bs i en : 0 <= sd_info (spec_entry e bs i) < 256 -> view_fde (en_fde en) = spec_entry e bs i ->
  accessors_show (spec_version bs) (spec_entry e bs i) en.
Proof.
  intros Hi H. set (d := spec_entry e bs i) in *. assert (HR : sd_rep d = if spec_version bs =? 1 then None else sd_rep d).
  { unfold d, spec_entry. cbn [sd_rep]. destruct (spec_version bs =? 1); reflexivity. }
  assert (HR' : spec_version bs =? 1 = false -> sd_rep d <> None).
  { unfold d, spec_entry. cbn [sd_rep]. intros ->. discriminate. }
  rewrite <- H in HR, HR', Hi |- *. cbn [view_fde sd_rep sd_info] in HR, HR', Hi. destruct (fde_layout_actual _ Hi) as (_ & K & P).
  unfold accessors_show, en_start_address, en_size, en_fdetype, en_pauth_key, en_rep_block_size. cbn [view_fde sd_start sd_size sd_info sd_rep].
  rewrite <- K, <- P. destruct (en_fde en) as [r|r]; cbn [fde_fdetype fde_info fde_rep_size] in *.
  - destruct (spec_version bs =? 1); [|destruct (HR' eq_refl); reflexivity].
    destruct (fdetype (f1_info r)), (pauth_key (f1_info r)); repeat split; reflexivity.
  - destruct (spec_version bs =? 1); [discriminate|].
    destruct (fdetype (f2_info r)), (pauth_key (f2_info r)); repeat split; reflexivity.
Qed.

(** Whatever calls deliver it. *)
Theorem accessors_of_delivered md e bs sf ops k en :
  wf_mode md -> rust_slice md bs -> load md e bs = Ok sf ->
  nth_error (fst (fdi_run (fdes sf) ops)) k = Some (Some en) ->
  exists i, nth_error (fst (window_run (0, spec_num_fdes e bs) ops)) k = Some (Some i) /\
    accessors_show (spec_version bs) (spec_entry e bs i) en.
Proof.
  intros Hmd Hlen Hl Hk. destruct (iterator_spec md e bs sf ops Hmd Hlen Hl) as [H _].
  apply (map_nth_error (option_map (fun en => view_fde (en_fde en)))) in Hk. rewrite H in Hk.
  rewrite nth_error_map in Hk. destruct (nth_error _ k) as [[i|]|] eqn:Hi; try discriminate. assert (E : spec_entry e bs i = view_fde (en_fde en)) by (cbn [option_map] in Hk; congruence).
  exists i. split; [reflexivity|]. apply accessors_right; [|symmetry; exact E]. unfold spec_entry. cbn [sd_info].
  rewrite u_at_rd. apply rd_u1.
Qed.

Definition nth_entry (sf : sframe) (i : nat) : entry :=
  nth i (all_fdes sf) (Entry (FdeV2 (RawFde2 0 0 0 0 0 0 0)) []).

(** Rows of an entry as the API shows them. *)
Definition rows_seen (md : mode) (e : endian) (en : entry) : outcome fuel_error (list (spec_row + read_error)) :=
  let* l := all_fres md e en in
  Ok (map (fun x => match x with inl fr => inl (view_fre fr) | inr er => inr er end) l).

Lemma nth_rows_refuted :
  exists s md e bs sf en1 en2,
    build md e s = Ok bs /\ load md e bs = Ok sf /\
    last (fst (fdi_run (fdes sf) [OpNext; OpNext])) None = Some en1 /\
    fst (fdi_nth 1 (fdes sf)) = Some en2 /\
    en_fde en1 = en_fde en2 /\
    rows_seen md e en1 <> rows_seen md e en2.
Proof.
  exists demo_sfb, rel64, LE, (demo LE), (demo_sf LE), (nth_entry (demo_sf LE) 1).
  eexists. split; [apply demo_built|]. split; [apply demo_loads|].
  split; [vm_compute; reflexivity|]. split; [vm_compute; reflexivity|].
  split; [vm_compute; reflexivity|]. vm_compute. discriminate.
Qed.

Lemma next_back_rows_refuted :
  exists s md e bs sf en1 en2,
    build md e s = Ok bs /\ load md e bs = Ok sf /\
    last (fst (fdi_run (fdes sf) [OpNext; OpNext])) None = Some en1 /\
    fst (fdi_next_back (fdes sf)) = Some en2 /\
    en_fde en1 = en_fde en2 /\
    rows_seen md e en1 <> rows_seen md e en2.
Proof.
  exists demo_sfb, rel64, LE, (demo LE), (demo_sf LE), (nth_entry (demo_sf LE) 1).
  eexists. split; [apply demo_built|]. split; [apply demo_loads|].
  split; [vm_compute; reflexivity|]. split; [vm_compute; reflexivity|].
  split; [vm_compute; reflexivity|]. vm_compute. discriminate.
Qed.

Lemma row_panic_refuted :
  exists md e bs sf en,
    wf_mode md /\ load md e bs = Ok sf /\ In en (all_fdes sf) /\ all_fres md e en = Panic.
Proof.
  exists rel64, LE, (shrunk LE), (shrunk_sf LE), (nth_entry (shrunk_sf LE) 0).
  split; [apply wf_rel64|]. split; [vm_compute; reflexivity|].
  split; [vm_compute; left; reflexivity|]. vm_compute. reflexivity.
Qed.

(** Both binary searches miss a covered address of a built section. *)
Lemma sorted_search_refuted : forall impl,
  exists s md e bs sf a k,
    bsearch md = impl /\ build md e s = Ok bs /\ load md e bs = Ok sf /\
    is_sorted_flag bs = true /\
    0 <= k < spec_num_fdes e bs /\
    in_range (sd_start (spec_entry e bs k)) (sd_size (spec_entry e bs k)) a /\
    fde_for_address md sf a = Ok None.
Proof.
  intros [|].
  - exists demo_sfb, rel64old, LE, (demo LE), (demo_sf LE), 0x104, 0.
    repeat apply conj; vm_compute; first [reflexivity|discriminate].
  - exists demo_sfb, rel64, LE, (demo LE), (demo_sf LE), 0x104, 0.
    repeat apply conj; vm_compute; first [reflexivity|discriminate].
Qed.

Lemma found_rows_refuted :
  exists s md e bs sf a en,
    build md e s = Ok bs /\ load md e bs = Ok sf /\
    fde_for_address md sf a = Ok (Some en) /\
    view_fde (en_fde en) = spec_entry e bs 1 /\
    rows_seen md e en <> rows_seen md e (nth_entry sf 1).
Proof.
  exists demo_sfb, rel64, LE, (demo LE), (demo_sf LE), 0x204.
  eexists. split; [apply demo_built|]. split; [apply demo_loads|].
  split; [vm_compute; reflexivity|]. split; [vm_compute; reflexivity|]. vm_compute. discriminate.
Qed.

Lemma row_search_outside_refuted :
  exists s md e bs sf a fr,
    build md e s = Ok bs /\ load md e bs = Ok sf /\
    ~ in_range (en_start_address (nth_entry sf 0)) (en_size (nth_entry sf 0)) a /\
    get_fre_for_address md e (nth_entry sf 0) a = Ok (Some fr).
Proof.
  exists demo_sfb, rel64, LE, (demo LE), (demo_sf LE), 0x110.
  eexists. split; [apply demo_built|]. split; [apply demo_loads|].
  split; [|vm_compute; reflexivity]. vm_compute. intros [_ Hc]. discriminate Hc.
Qed.

Lemma row_search_refuted :
  exists s md e bs sf a rows fr,
    build md e s = Ok bs /\ load md e bs = Ok sf /\
    in_range (en_start_address (nth_entry sf 0)) (en_size (nth_entry sf 0)) a /\
    all_fres md e (nth_entry sf 0) = Ok (map inl rows) /\ ascending rows /\
    get_fre_for_address md e (nth_entry sf 0) a = Ok (Some fr) /\
    ~ row_in_effect rows (a - en_start_address (nth_entry sf 0)) fr.
Proof.
  exists demo_sfb, rel64, LE, (demo LE), (demo_sf LE), 0x108.
  set (en := nth_entry (demo_sf LE) 0).
  assert (HR : exists r1 r2, all_fres rel64 LE en = Ok (map inl [r1; r2]) /\
    get_fre_for_address rel64 LE en 0x108 = Ok (Some r1) /\
    fre_start_address_offset r1 = 0 /\ fre_start_address_offset r2 = 4).
  { eexists; eexists. split; [vm_compute; reflexivity|]. split; [vm_compute; reflexivity|].
    split; vm_compute; reflexivity. }
  destruct HR as (r1 & r2 & H1 & H2 & H3 & H4).
  exists [r1; r2], r1. split; [apply demo_built|]. split; [apply demo_loads|].
  split; [vm_compute; split; [discriminate|reflexivity]|].
  split; [exact H1|]. split.
  { repeat constructor. lia. }
  split; [exact H2|]. intros (_ & _ & HM).
  assert (Hoff : 264 - en_start_address en = 8) by (vm_compute; reflexivity).
  specialize (HM r2 (or_intror (or_introl eq_refl))). lia.
Qed.

Lemma fde_layout_refuted :
  (exists i t, in_u8 i /\ bits 4 1 (set_fdetype t i) <> fde_type_u8 t) /\
  (exists i k, in_u8 i /\ bits 5 1 (set_pauth_key k i) <> pauth_u8 k) /\
  (exists i, in_u8 i /\ fre_type_u8 (fretype i) <> bits 0 4 i).
Proof.
  split; [exists 0, PcMask|split; [exists 0, KeyB|exists 8]]; (split; [unfold in_u8; lia|vm_compute; discriminate]).
Qed.

(** C09, for an entry. *)
Lemma row_iter_bounded md e en n os it' :
  fde_ok (en_fde en) -> fri_calls n md e (fres en) = Ok (os, it') ->
  exists good bad k,
    os = map (fun fr => Some (inl fr)) good ++ map (fun er => Some (inr er)) bad ++ repeat None k /\
    (length bad <= 1)%nat /\ zlen good + zlen bad <= fde_num_fres (en_fde en).
Proof.
  intros Hf H.
  destruct (fri_calls_shape md e n (fres en) os it') as (good & bad & k & H1 & H2 & H3); cbn; try apply Hf.
  - destruct Hf as (_ & _ & _ & [Hn _] & _). lia.
  - exact H.
  - exists good, bad, k. cbn in H3. repeat split; try assumption. lia.
Qed.

(** C11, for an entry. *)
Lemma row_iter_work md e en :
  wf_mode md -> fde_ok (en_fde en) ->
  all_fres md e en <> Err OutOfFuel /\
  forall l, all_fres md e en = Ok l ->
    zlen l <= zlen (en_fres en) / 2 + 1 /\
    exists good bad aw rest,
      l = map inl good ++ map inr bad /\ (length bad <= 1)%nat /\
      (good <> [] -> width_of (fre_type_num (fde_info (en_fde en))) = Some aw) /\
      spec_rows_at e aw (en_fres en) (map view_fre good) rest.
Proof.
  intros Hmd Hf. split; [apply all_fres_fuel; assumption|].
  intros l Hl. unfold all_fres in Hl.
  destruct (fri_collect_shape md e _ (fres en) _ Hmd Hf Hl) as (good & bad & aw & rest & HL & Hb & _ & Haw & HR & Hlen & _).
  cbn [fres ri_fde ri_fres ri_index] in *. split.
  - rewrite HL, zlen_app, !zlen_map. pose proof (zlen_nonneg rest). unfold zlen in *. lia.
  - exists good, bad, aw, rest. auto.
Qed.

Lemma search_cases :
  let en := Entry (FdeV2 (RawFde2 0x1000 32 0 3 8 0 0)) (sf_fres (demo_sf LE)) in
  fde_ok (en_fde en) /\ en_fdetype en = PPcMask /\ en_rep_block_size en = Some 0 /\
  get_fre_for_address dev64 LE en 0x1008 = Err (inr InvalidFdeRepBlockSize) /\
  (* the second row panics, the first one is found *)
  let sh := Entry (FdeV2 (RawFde2 0x1000 1 0 3 0 0 0)) (sf_fres (demo_sf LE)) in
  fde_ok (en_fde sh) /\ all_fres rel64 LE sh = Panic /\ lookup_offset sh 0 = Some 0 /\
  exists fr it', fri_calls 0 rel64 LE (fres sh) = Ok ([], fres sh) /\ fri_next rel64 LE (fres sh) = Ok (Some (inl fr), it') /\
    get_fre_for_address rel64 LE sh (en_start_address sh) = Ok (Some fr).
Proof.
  intros en. split; [vm_compute; repeat split; discriminate|]. split; [vm_compute; reflexivity|]. split; [vm_compute; reflexivity|].
  split; [vm_compute; reflexivity|]. intros sh. split; [vm_compute; repeat split; discriminate|].
  split; [vm_compute; reflexivity|]. split; [vm_compute; reflexivity|].
  eexists. eexists. split; [reflexivity|]. split; [vm_compute; reflexivity|]. vm_compute. reflexivity.
Qed.
