(** sframedump (C59). *)
From Coq Require Import String.
From Verif Require Export ToolsProps.
Local Open Scope string_scope.
Local Open Scope list_scope.

Section Dump.
  Variables (md : mode) (e : endian) (sf : sframe).

  Definition err_items (er : option read_error) : list fre_item :=
    match er with Some x => [inr x] | None => [] end.
  Definition err_lines (er : option read_error) : list dump_line :=
    match er with Some x => [LineErr x] | None => [] end.

  Lemma cell_shows {E} mk (o : outcome E Z) : shows mk o (cell_of mk o).
  Proof.
    split.
    - intros z ->. reflexivity.
    - intros H. destruct o as [z| |]; [exfalso; exact (H z eq_refl)|reflexivity|reflexivity].
  Qed.

  Lemma start_cases {E} fr :
    (exists a, @fre_start_address never md fr = Ok a /\ @fre_start_address E md fr = Ok a) \/
    (@fre_start_address never md fr = Panic /\ @fre_start_address E md fr = Panic).
  Proof.
    unfold fre_start_address. destruct (debug_asserts md); [|left; eauto].
    destruct (in_i32b _); [left; eauto|right; auto].
  Qed.

  Lemma dump_row_cases {E} fr :
    (exists ln, @dump_row E md sf fr = Ok ln /\ row_line md sf fr ln) \/
    (@dump_row E md sf fr = Panic /\ @fre_start_address never md fr = Panic).
  Proof.
    unfold dump_row. destruct (@start_cases E fr) as [(a & H1 & H2)|[H1 H2]]; rewrite H2; cbn [bind].
    - left. eexists. split; [reflexivity|]. do 4 eexists. split; [reflexivity|]. split; [exact H1|].
      split; [apply cell_shows|]. split; apply cell_shows.
    - right. auto.
  Qed.

  Lemma dump_rows_cases : forall k it, fde_num_fres (ri_fde it) <= u32_max ->
    match fri_collect k md e it with
    | Ok l => exists good er, l = map inl good ++ err_items er /\
        ((exists rows, dump_rows k md e sf it = Ok (rows ++ err_lines er) /\ Forall2 (row_line md sf) good rows) \/
         (dump_rows k md e sf it = Panic /\ exists fr, In fr good /\ @fre_start_address never md fr = Panic))
    | Panic => dump_rows k md e sf it = Panic
    | Err _ => True
    end.
  Proof.
    induction k as [|k IH]; intros it Hn; [exact I|]. cbn [fri_collect dump_rows].
    unfold fri_next. destruct (Z.leb_spec (fde_num_fres (ri_fde it)) (ri_index it)) as [Hd|Hd].
    { exists [], None. split; [reflexivity|]. left. exists []. split; [reflexivity|constructor]. }
    destruct (fre_load md e (ri_fde it) (ri_fres it)) as [[fr rest]|er|].
    - set (it' := FreIter (ri_fde it) rest (ri_index it + 1)). specialize (IH it' Hn).
      destruct (fri_collect k md e it') as [l|[]|] eqn:EC; [|exact I|].
      + destruct IH as (good & er & -> & IH). exists (fr :: good), er. split; [reflexivity|].
        destruct (@dump_row_cases fuel_error fr) as [(ln & H1 & H2)|[H1 H2]]; rewrite H1; cbn [bind].
        * destruct IH as [(rows & H3 & H4)|(H3 & fr' & H4 & H5)]; rewrite H3; cbn [bind].
          -- left. exists (ln :: rows). split; [reflexivity|constructor; assumption].
          -- right. split; [reflexivity|]. exists fr'. split; [right; exact H4|exact H5].
        * right. split; [reflexivity|]. exists fr. split; [left; reflexivity|exact H2].
      + destruct (@dump_row_cases fuel_error fr) as [(ln & H1 & H2)|[H1 H2]]; rewrite H1; cbn [bind]; [|reflexivity].
        rewrite IH. reflexivity.
    - destruct k as [|k]; cbn [fri_collect]; [exact I|]. unfold fri_next at 1. cbn [ri_fde ri_index].
      destruct (Z.leb_spec (fde_num_fres (ri_fde it)) u32_max); [|lia].
      exists [], (Some er). split; [reflexivity|]. left. exists []. split; [reflexivity|constructor].
    - reflexivity.
  Qed.

  Lemma results_fun en g er g' er' : fre_results md e en g er -> fre_results md e en g' er' -> g = g' /\ er = er'.
  Proof.
    unfold fre_results. intros H H'. rewrite H in H'. injection H' as H'. clear H.
    revert g' H'. induction g as [|x t IH]; intros [|y t'] H'; cbn in H'.
    - destruct er, er'; cbn in H'; try discriminate; [injection H' as <-; auto|auto].
    - destruct er; discriminate.
    - destruct er'; discriminate.
    - injection H' as -> H'. destruct (IH t' H') as [-> ->]. auto.
  Qed.

  Lemma dump_fde_cases idx en : wf_mode md -> fde_ok (en_fde en) ->
    (exists l, dump_fde md e sf idx en = Ok l /\ func_lines md e sf idx en l /\ ~ panics_in md e en) \/
    (dump_fde md e sf idx en = Panic /\ panics_in md e en).
  Proof.
    intros Hm Hf. unfold dump_fde.
    assert (Hn : fde_num_fres (ri_fde (fres en)) <= u32_max).
    { cbn. destruct Hf as (_ & _ & _ & H & _). unfold in_u32 in *; lia. }
    pose proof (dump_rows_cases (fri_fuel (fres en)) (fres en) Hn) as HC.
    pose proof (all_fres_fuel md e en Hm Hf) as Hfuel. unfold all_fres in Hfuel.
    destruct (fri_collect (fri_fuel (fres en)) md e (fres en)) as [l|[]|] eqn:EC; [|congruence|].
    - destruct HC as (good & er & -> & HC).
      assert (HR : fre_results md e en good er) by (unfold fre_results, all_fres; rewrite EC; reflexivity).
      destruct HC as [(rows & H1 & H2)|(H1 & fr & H2 & H3)]; rewrite H1; cbn [bind].
      + left. eexists. split; [reflexivity|]. split.
        * exists good, er, rows. split; [exact HR|]. split; [exact H2|]. rewrite <- app_assoc. reflexivity.
        * intros [H|(g & er' & fr & Hg & Hi & Hp)]; [unfold all_fres in H; congruence|].
          destruct (results_fun _ _ _ _ _ HR Hg) as [<- _].
          destruct (Forall2_in_l _ _ _ _ H2 Hi) as (ln & _ & st & c & f & r & _ & Hs & _). congruence.
      + right. split; [reflexivity|]. right. exists good, er, fr. auto.
    - right. rewrite HC. split; [reflexivity|]. left. exact EC.
  Qed.

  Lemma dump_fdes_cases fb : forall l fuel idx, wf_mode md -> Forall fde_ok l -> (length l < fuel)%nat ->
    (exists out, dump_fdes fuel md e sf idx (FdeIter l fb) = Ok out /\
       all_func_lines md e sf idx (map (entry_of fb) l) out /\ Forall (fun en => ~ panics_in md e en) (map (entry_of fb) l)) \/
    (dump_fdes fuel md e sf idx (FdeIter l fb) = Panic /\ Exists (panics_in md e) (map (entry_of fb) l)).
  Proof.
    induction l as [|f t IH]; intros fuel idx Hm Hok Hl; destruct fuel as [|k]; cbn [length] in Hl; try lia; cbn [dump_fdes].
    - left. exists []. split; [reflexivity|]. split; [reflexivity|constructor].
    - unfold fdi_next. cbn [it_fdes it_fres]. inversion Hok as [|? ? Hf Ht]; subst.
      fold (entry_of fb f). destruct (dump_fde_cases idx (entry_of fb f) Hm Hf) as [(l1 & H1 & H2 & H3)|[H1 H2]].
      + rewrite H1. cbn [bind].
        destruct (IH k (idx + 1) Hm Ht ltac:(lia)) as [(l2 & H4 & H5 & H6)|[H4 H5]]; rewrite H4; cbn [bind].
        * left. eexists. split; [reflexivity|]. split; [exists l1, l2; auto|]. cbn [map]. constructor; assumption.
        * right. split; [reflexivity|]. cbn [map]. apply Exists_cons_tl, H5.
      + rewrite H1. cbn [bind]. right. split; [reflexivity|]. cbn [map]. apply Exists_cons_hd, H2.
  Qed.
End Dump.

Theorem dump_exact md e bs sf : wf_mode md -> rust_slice md bs -> load md e bs = Ok sf ->
  (dump md e sf = Panic <-> exists en, In en (all_fdes sf) /\ panics_in md e en) /\
  (dump md e sf <> Panic -> exists out,
     dump md e sf = Ok (LineHeader (version sf) (flags sf) (num_fdes sf) (num_fres sf) (abi sf)
                          (fixed_fp_offset sf) (fixed_ra_offset sf) :: LineBlank :: LineIndex :: out) /\
     all_func_lines md e sf 0 (all_fdes sf) out).
Proof.
  intros Hm Hs HL. unfold dump. rewrite all_fdes_map.
  pose proof (loaded_fdes_ok _ _ _ _ Hm Hs HL) as Hok.
  destruct (dump_fdes_cases md e sf (sf_fres sf) (it_fdes (fdes sf)) (S (length (it_fdes (fdes sf)))) 0 Hm Hok ltac:(lia))
    as [(out & H1 & H2 & H3)|[H1 H2]]; change (FdeIter (it_fdes (fdes sf)) (sf_fres sf)) with (fdes sf) in H1; rewrite H1; cbn [bind].
  - split; [|intros _; exists out; split; [reflexivity|exact H2]]. split; [discriminate|]. intros (en & Hi & Hp). rewrite Forall_forall in H3. exfalso. exact (H3 en Hi Hp).
  - split; [|congruence]. split; [|reflexivity]. intros _. apply Exists_exists, H2.
Qed.

(** An error in a function leaves the other functions alone: the lines of a
    function depend on that function only. *)
Theorem dump_functions md e sf : forall ens idx out, all_func_lines md e sf idx ens out ->
  forall i en, nth_error ens i = Some en ->
  exists before l after, out = before ++ l ++ after /\ func_lines md e sf (idx + Z.of_nat i) en l.
Proof.
  induction ens as [|x t IH]; intros idx out H i en Hi; [destruct i; discriminate|].
  destruct H as (l1 & l2 & -> & H1 & H2). destruct i as [|i]; cbn in Hi.
  - injection Hi as ->. exists [], l1, l2. split; [reflexivity|]. rewrite Z.add_0_r. exact H1.
  - destruct (IH _ _ H2 i en Hi) as (b & l & a & -> & Hl). exists (l1 ++ b), l, a. split; [rewrite !app_assoc; reflexivity|].
    replace (idx + Z.of_nat (S i)) with (idx + 1 + Z.of_nat i) by lia. exact Hl.
Qed.

(** The program as a whole. *)
Theorem dump_main_ok md native file out : wf_mode md ->
  (forall bs, elf_sframe file = Some bs -> rust_slice md bs) ->
  (sframedump_main md native (Some file) = Ok out <->
   exists addr bs sf, has_section (elf_sections file) ".sframe" addr /\ elf_sframe file = Some bs /\
     load md native bs = Ok sf /\ dump md native sf = Ok out) /\
  sframedump_main md native (Some file) <> Err DumpOutOfFuel.
Proof.
  intros Hm Hs. unfold sframedump_main.
  destruct (section_by_name ".sframe" (elf_sections file)) as [addr|] eqn:ES.
  2:{ split; [|discriminate]. split; [discriminate|]. intros (a & bs & sf & H & _). apply section_found in H. congruence. }
  destruct (elf_sframe file) as [bs|] eqn:EB.
  2:{ split; [|discriminate]. split; [discriminate|]. intros (a & bs & sf & _ & H & _). discriminate. }
  destruct (load md native bs) as [sf|er|] eqn:EL; cbn [map_err bind].
  2,3: split; [|discriminate]; (split; [discriminate|]); intros (a & bs' & sf & _ & [= <-] & H & _); congruence.
  destruct (dump_exact md native bs sf Hm (Hs bs eq_refl) EL) as [HP HO].
  destruct (dump md native sf) as [l|er|] eqn:ED; cbn [map_err].
  - split; [|discriminate]. split.
    + intros [= <-]. exists addr, bs, sf. split; [apply section_found, ES|auto].
    + intros (a & bs' & sf' & _ & [= <-] & H2 & H3). assert (sf' = sf) by congruence. subst. congruence.
  - exfalso. destruct (HO ltac:(discriminate)) as (o & H & _). discriminate.
  - split; [|discriminate]. split; [discriminate|].
    intros (a & bs' & sf' & _ & [= <-] & H2 & H3). assert (sf' = sf) by congruence. subst. congruence.
Qed.
