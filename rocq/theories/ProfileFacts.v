(** Builds with different checks (C136): every operation, from the arithmetic up. *)
From Verif Require Export ProfileSpec.
From Verif Require Import LoadFacts Base BTree Raw Read Write Convert Tools Text Loud V1Loud Dwarfdump Debug Io Spec.

Lemma follows_refl {E A} (a : outcome E A) : same_or_panic a a.
Proof. right; reflexivity. Qed.
Lemma follows_panic {E A} (b : outcome E A) : same_or_panic Panic b.
Proof. left; reflexivity. Qed.
Lemma follows_bind {E A B} (a b : outcome E A) (f g : A -> outcome E B) :
  same_or_panic a b -> (forall x, same_or_panic (f x) (g x)) -> same_or_panic (bind a f) (bind b g).
Proof. intros [->| ->] H; [left; reflexivity|]. destruct b; [apply H|right; reflexivity|left; reflexivity]. Qed.
Lemma follows_map {E F A} (f : E -> F) (a b : outcome E A) :
  same_or_panic a b -> same_or_panic (map_err f a) (map_err f b).
Proof. intros [->| ->]; [left; reflexivity|right; reflexivity]. Qed.
Lemma follows_lift {E A} (a b : outcome never A) : same_or_panic a b -> same_or_panic (@lift E A a) (lift b).
Proof. intros [->| ->]; [left; reflexivity|right; reflexivity]. Qed.
Lemma follows_fuel {A} (a b : outcome fuel_error A) : same_or_panic a b -> same_or_panic (of_fuel a) (of_fuel b).
Proof. intros [->| ->]; [left; reflexivity|right; reflexivity]. Qed.

Lemma cut_refl {T E A} (a : list T * outcome E A) : same_or_cut a a.
Proof. right; reflexivity. Qed.
Lemma cut_quiet {E A} (a b : outcome E A) : same_or_panic a b -> same_or_cut (quiet a) (quiet b).
Proof. intros [->| ->]; [left; split; [reflexivity|eexists; reflexivity]|right; reflexivity]. Qed.
Lemma cut_bind {E A B} (a b : loud E A) (f g : A -> loud E B) :
  same_or_cut a b -> (forall x, same_or_cut (f x) (g x)) -> same_or_cut (lbind a f) (lbind b g).
Proof.
  destruct a as [la a], b as [lb b]. intros [[H1 [rest H2]]|H] Hk; cbn in *.
  - subst a lb. left. unfold lbind; cbn. split; [reflexivity|].
    destruct b; cbn; rewrite <- ?app_assoc; eexists; reflexivity.
  - injection H as -> ->. unfold lbind; cbn. destruct b as [x|er|]; [|right; reflexivity|right; reflexivity].
    destruct (Hk x) as [[H1 [rest H2]]|H].
    + left. cbn. rewrite H1, H2. split; [reflexivity|]. exists rest. apply app_assoc.
    + right. rewrite H. reflexivity.
Qed.
Lemma cut_err {E F A} (f : E -> F) (a b : loud E A) : same_or_cut a b -> same_or_cut (loud_err f a) (loud_err f b).
Proof.
  destruct a as [la a], b as [lb b]. intros [[H1 H2]|H]; cbn in *.
  - left; cbn. subst a. split; [reflexivity|exact H2].
  - right. injection H as -> ->. reflexivity.
Qed.

Create HintDb profile.
Ltac follow :=
  repeat first
    [ apply follows_refl | apply follows_panic | apply cut_refl
    | solve [eauto with profile]
    | apply follows_bind; [|intros ?]
    | apply cut_bind; [|intros ?]
    | apply follows_map | apply follows_lift | apply follows_fuel | apply cut_err | apply cut_quiet
    | match goal with
      | |- same_or_panic (if ?c then _ else _) (if ?c then _ else _) => destruct c
      | |- same_or_panic (match ?c with _ => _ end) (match ?c with _ => _ end) => destruct c
      | |- same_or_cut (if ?c then _ else _) (if ?c then _ else _) => destruct c
      | |- same_or_cut (match ?c with _ => _ end) (match ?c with _ => _ end) => destruct c
      end ].

Section Profiles.
  Variables md md' : mode.
  Hypothesis ST : stricter md md'.

  (** Arithmetic. *)
  Lemma sub_i32_follows E a b : same_or_panic (@sub_i32 E md a b) (sub_i32 md' a b).
  Proof.
    destruct ST as [H _ _ _]. unfold sub_i32. destruct (in_i32b _); [right; reflexivity|].
    destruct (overflow_checks md'); [rewrite H by reflexivity; left; reflexivity|].
    destruct (overflow_checks md); [left|right]; reflexivity.
  Qed.
  Lemma sub_u64_follows E a b : same_or_panic (@sub_u64 E md a b) (sub_u64 md' a b).
  Proof.
    destruct ST as [H _ _ _]. unfold sub_u64. destruct (0 <=? _); [right; reflexivity|].
    destruct (overflow_checks md'); [rewrite H by reflexivity; left; reflexivity|].
    destruct (overflow_checks md); [left|right]; reflexivity.
  Qed.
  Lemma add_u64_follows E a b : same_or_panic (@add_u64 E md a b) (add_u64 md' a b).
  Proof.
    destruct ST as [H _ _ _]. unfold add_u64. destruct (_ <? _); [right; reflexivity|].
    destruct (overflow_checks md'); [rewrite H by reflexivity; left; reflexivity|].
    destruct (overflow_checks md); [left|right]; reflexivity.
  Qed.
  Hint Resolve sub_i32_follows sub_u64_follows add_u64_follows : profile.

  (** Reading. *)
  Lemma target_bits : (usize_bits md = 32 \/ usize_bits md = 64) /\ (usize_bits md' = 32 \/ usize_bits md' = 64).
  Proof. destruct ST as [_ _ _ H]. exact H. Qed.

  Lemma offsets_same e n count bs : (n <= 4)%nat -> 0 <= count <= 3 ->
    fre_read_offsets md e n count bs = fre_read_offsets md' e n count bs.
  Proof.
    intros Hn Hc. unfold fre_read_offsets, slice_from_prefix. cbv zeta. destruct target_bits as [H H'].
    assert (L : Z.of_nat n * count < 2 ^ 32) by (change (2 ^ 32) with 4294967296; nia).
    destruct H as [-> | ->], H' as [-> | ->]; try reflexivity;
      repeat match goal with |- context [?a <=? ?b] => destruct (Z.leb_spec a b) end; try reflexivity; lia.
  Qed.
  Lemma fre_load_same e f bs : fre_load md e f bs = fre_load md' e f bs.
  Proof.
    unfold fre_load, bind. destruct (match fretype (fde_info f) with Addr1 => _ | _ => _ end) as [[[st inf] ob]| |]; [|reflexivity|reflexivity].
    destruct ((0 <=? offset_count inf) && (offset_count inf <=? 3)) eqn:Ec; cbn [negb]; [|reflexivity].
    apply andb_true_iff in Ec. destruct Ec as [C1 C2]. apply Z.leb_le in C1, C2.
    destruct (offset_size inf); try reflexivity; rewrite offsets_same by (lia || (split; assumption)); reflexivity.
  Qed.
  Lemma fri_next_same e it : fri_next md e it = fri_next md' e it.
  Proof. unfold fri_next. rewrite fre_load_same. reflexivity. Qed.
  Lemma fri_collect_same e : forall fuel it, fri_collect fuel md e it = fri_collect fuel md' e it.
  Proof. induction fuel as [|k IH]; intros it; cbn; [reflexivity|]. rewrite fri_next_same. destruct (fri_next md' e it) as [[[x|] it']| |]; try reflexivity. rewrite IH. reflexivity. Qed.
  Lemma all_fres_same e en : all_fres md e en = all_fres md' e en.
  Proof. apply fri_collect_same. Qed.
  Lemma fri_find_same e p : forall fuel it, fri_find fuel md e p it = fri_find fuel md' e p it.
  Proof. induction fuel as [|k IH]; intros it; cbn; [reflexivity|]. rewrite fri_next_same. destruct (fri_next md' e it) as [[[[x|x]|] it']| |]; try reflexivity. rewrite IH. reflexivity. Qed.

  Lemma slice_wider bs : usize_bits md <= usize_bits md' -> rust_slice md bs -> rust_slice md' bs.
  Proof.
    unfold rust_slice. intros W L. destruct target_bits as [[E|E] [E'|E']]; rewrite E, E' in *; try assumption.
    - etransitivity; [exact L|reflexivity].
    - lia.
  Qed.
  Lemma load_follows e bs : usize_bits md <= usize_bits md' -> rust_slice md bs -> same_or_panic (load md e bs) (load md' e bs).
  Proof.
    intros W L. pose proof (slice_wider _ W L) as L'. destruct target_bits as [H H'].
    destruct (load_spec md e bs H L) as [|?|?|? ? ? ? Hn|?|?], (load_spec md' e bs H' L') as [|?|?|? ? ? ? Hn'|?|?];
      try (left; reflexivity); try (right; reflexivity); try lia; try contradiction.
    - destruct ST as [O _ _ _]. exfalso. apply Hn. repeat split; auto. destruct H; lia.
    - exfalso. unfold rust_slice, fits in *.
      match goal with E : usize_bits md' = 32 |- _ => rewrite E in L' end.
      change (2 ^ (32 - 1)) with 2147483648 in L'. pose proof (rd_u1 e 7 bs). pose proof (rd_u4 e 24 bs).
      cbv zeta in *. lia.
  Qed.
  Lemma contains_follows E en a : same_or_panic (@contains E md en a) (contains md' en a).
  Proof. unfold contains. follow. Qed.
  Lemma fre_start_follows E fr : same_or_panic (@fre_start_address E md fr) (fre_start_address md' fr).
  Proof.
    unfold fre_start_address. destruct ST as [_ D _ _]. cbv zeta.
    destruct (debug_asserts md'); [rewrite D by reflexivity; right; reflexivity|].
    destruct (debug_asserts md); [|right; reflexivity].
    destruct (in_i32b _) eqn:Ei; [|left; reflexivity]. right. f_equal. apply andb_true_iff in Ei.
    unfold as_s, i32_min, i32_max in *. change (2 ^ 32) with 4294967296. change (2 ^ (32 - 1)) with 2147483648. cbv zeta.
    destruct (Z.ltb_spec ((fde_start_address (fr_fde fr) + fr_start fr) mod 4294967296) 2147483648); lia.
  Qed.
  Lemma search_follows E a f : same_or_panic (@search_cmp E md a f) (search_cmp md' a f).
  Proof. unfold search_cmp. follow. Qed.
  Hint Resolve contains_follows fre_start_follows search_follows : profile.

  Lemma left_right_follows a l : forall fuel left right,
    same_or_panic (bs_left_right fuel (search_cmp md a) l left right) (bs_left_right fuel (search_cmp md' a) l left right).
  Proof. induction fuel as [|k IH]; intros left right; cbn [bs_left_right]; cbv zeta; follow. Qed.
  Lemma base_follows a l : forall fuel base size,
    same_or_panic (bs_base fuel (search_cmp md a) l base size) (bs_base fuel (search_cmp md' a) l base size).
  Proof. induction fuel as [|k IH]; intros base size; cbn [bs_base]; cbv zeta; follow. Qed.
  Lemma fdi_find_follows a : forall fuel it, same_or_panic (fdi_find fuel md a it) (fdi_find fuel md' a it).
  Proof. induction fuel as [|k IH]; intros it; cbn [fdi_find]; follow. Qed.
  Hint Resolve left_right_follows base_follows fdi_find_follows : profile.
  Lemma fde_for_address_follows sf a : same_or_panic (fde_for_address md sf a) (fde_for_address md' sf a).
  Proof.
    unfold fde_for_address, binary_search. destruct ST as [_ _ B _]. rewrite B. cbv zeta. follow.
  Qed.
  Lemma get_fre_follows e en a : same_or_panic (get_fre_for_address md e en a) (get_fre_for_address md' e en a).
  Proof.
    unfold get_fre_for_address. destruct (_ <? _); [follow|]. apply follows_bind; [follow|intros d]. cbv zeta.
    destruct (_ <? _); [follow|]. destruct (en_fdetype en); rewrite ?fri_find_same; try solve [follow].
    destruct (en_rep_block_size en); [|follow]. rewrite fri_find_same. follow.
  Qed.
  Hint Resolve fde_for_address_follows get_fre_follows : profile.

  (** Writing. *)
  Lemma should_merge_follows E a b : same_or_panic (@should_merge E md a b) (should_merge md' a b).
  Proof.
    unfold should_merge. destruct ST as [_ D _ _]. destruct (debug_asserts md'); [rewrite D by reflexivity; follow|].
    cbn [andb]. destruct (debug_asserts md && _); follow.
  Qed.
  Hint Resolve should_merge_follows : profile.
  Lemma merge_loop_follows : forall fuel a m, same_or_panic (merge_fdes_loop fuel md a m) (merge_fdes_loop fuel md' a m).
  Proof. induction fuel as [|k IH]; intros a m; cbn [merge_fdes_loop]; cbv zeta; follow. Qed.
  Hint Resolve merge_loop_follows : profile.
  Lemma merge_fdes_follows s : same_or_panic (merge_adjacent_fdes md s) (merge_adjacent_fdes md' s).
  Proof. unfold merge_adjacent_fdes. follow. Qed.
  Lemma overlap_step E m a b t : @has_overlap E m (a :: b :: t) =
    if debug_asserts m && negb (fb_start a <=? fb_start b) then Panic
    else let* d := sub_i32 m (fb_start b) (fb_start a) in if as_u 32 d <? fb_size a then Ok true else has_overlap m (b :: t).
  Proof. reflexivity. Qed.
  Lemma overlap_follows E : forall l, same_or_panic (@has_overlap E md l) (has_overlap md' l).
  Proof.
    induction l as [|a [|b t] IH]; [follow|follow|]. rewrite !overlap_step.
    destruct ST as [_ D _ _]. destruct (debug_asserts md'); [rewrite D by reflexivity; follow|].
    cbn [andb]. destruct (debug_asserts md && _); follow.
  Qed.
  Hint Resolve merge_fdes_follows overlap_follows : profile.
  Lemma build_follows e s : same_or_panic (build md e s) (build md' e s).
  Proof. unfold build. cbv zeta. follow. Qed.
  Hint Resolve build_follows : profile.

  (** Converting. *)
  Lemma warn_follows op f r : same_or_panic (warn md op f r) (warn md' op f r).
  Proof. unfold warn. follow. Qed.
  Hint Resolve warn_follows : profile.
  Lemma convert_row_follows op f r : same_or_panic (convert_row md op f r) (convert_row md' op f r).
  Proof. unfold convert_row. cbv zeta. follow. Qed.
  Hint Resolve convert_row_follows : profile.
  Lemma convert_rows_follows op f : forall l b, same_or_panic (convert_rows md op f l b) (convert_rows md' op f l b).
  Proof. induction l as [|r t IH]; intros b; cbn [convert_rows]; follow. Qed.
  Hint Resolve convert_rows_follows : profile.
  Lemma convert_fde_follows op s f : same_or_panic (convert_fde md op s f) (convert_fde md' op s f).
  Proof. unfold convert_fde. cbv zeta. follow. Qed.
  Hint Resolve convert_fde_follows : profile.
  Lemma convert_entries_follows op : forall l s, same_or_panic (convert_entries md op l s) (convert_entries md' op l s).
  Proof. induction l as [|[|f|g] t IH]; intros s; cbn [convert_entries]; follow. Qed.
  Hint Resolve convert_entries_follows : profile.
  Lemma dwarf2sframe_follows op eh : same_or_panic (dwarf2sframe md op eh) (dwarf2sframe md' op eh).
  Proof. unfold dwarf2sframe, convert. follow. Qed.
  Hint Resolve dwarf2sframe_follows : profile.

  Lemma v1_rows_follows p f : forall l b, same_or_panic (v1_rows md p f l b) (v1_rows md' p f l b).
  Proof. induction l as [|r t IH]; intros b; cbn [v1_rows]; follow. Qed.
  Hint Resolve v1_rows_follows : profile.
  Lemma v1_fde_follows p s f : same_or_panic (v1_fde md p s f) (v1_fde md' p s f).
  Proof. unfold v1_fde. cbv zeta. follow. Qed.
  Hint Resolve v1_fde_follows : profile.
  Lemma v1_entries_follows p : forall l s, same_or_panic (v1_entries md p l s) (v1_entries md' p l s).
  Proof. induction l as [|[|f|g] t IH]; intros s; cbn [v1_entries]; follow. Qed.
  Hint Resolve v1_entries_follows : profile.
  Lemma v1_convert_follows p ents : same_or_panic (v1_convert md p ents) (v1_convert md' p ents).
  Proof. unfold v1_convert. follow. Qed.
  Hint Resolve v1_convert_follows : profile.

  (** Printing. *)
  Lemma warn_loud_follows op f r m : same_or_panic (warn_loud md op f r m) (warn_loud md' op f r m).
  Proof. unfold warn_loud. follow. Qed.
  Hint Resolve warn_loud_follows : profile.
  Lemma convert_row_loud_follows pr op f r : same_or_panic (convert_row_loud pr md op f r) (convert_row_loud pr md' op f r).
  Proof. unfold convert_row_loud. cbv zeta. follow. Qed.
  Hint Resolve convert_row_loud_follows : profile.
  Lemma convert_rows_loud_follows pr op f : forall l b, same_or_cut (convert_rows_loud pr md op f l b) (convert_rows_loud pr md' op f l b).
  Proof. induction l as [|r t IH]; intros b; cbn [convert_rows_loud]; follow. Qed.
  Hint Resolve convert_rows_loud_follows : profile.
  Lemma convert_fde_loud_follows pr op s f : same_or_cut (convert_fde_loud pr md op s f) (convert_fde_loud pr md' op s f).
  Proof. unfold convert_fde_loud. cbv zeta. follow. Qed.
  Hint Resolve convert_fde_loud_follows : profile.
  Lemma convert_entries_loud_follows pr op : forall l s, same_or_cut (convert_entries_loud pr md op l s) (convert_entries_loud pr md' op l s).
  Proof. induction l as [|[|f|g] t IH]; intros s; cbn [convert_entries_loud]; follow. Qed.
  Hint Resolve convert_entries_loud_follows : profile.
  Lemma dwarf2sframe_loud_follows pr op eh : same_or_cut (dwarf2sframe_loud pr md op eh) (dwarf2sframe_loud pr md' op eh).
  Proof. unfold dwarf2sframe_loud. follow. Qed.
  Hint Resolve dwarf2sframe_loud_follows : profile.
  Lemma v1_rows_loud_follows p m f : forall l b, same_or_cut (v1_rows_loud p m md f l b) (v1_rows_loud p m md' f l b).
  Proof. induction l as [|r t IH]; intros b; cbn [v1_rows_loud]; follow. Qed.
  Hint Resolve v1_rows_loud_follows : profile.
  Lemma v1_fde_loud_follows p m s f : same_or_cut (v1_fde_loud p m md s f) (v1_fde_loud p m md' s f).
  Proof. unfold v1_fde_loud. cbv zeta. follow. Qed.
  Hint Resolve v1_fde_loud_follows : profile.
  Lemma v1_entries_loud_follows p m : forall l s, same_or_cut (v1_entries_loud p m md l s) (v1_entries_loud p m md' l s).
  Proof. induction l as [|[|f|g] t IH]; intros s; cbn [v1_entries_loud]; follow. Qed.
  Hint Resolve v1_entries_loud_follows : profile.
  Lemma v1_convert_loud_follows p m ents : same_or_cut (v1_convert_loud p m md ents) (v1_convert_loud p m md' ents).
  Proof. unfold v1_convert_loud. follow. Qed.
  Hint Resolve v1_convert_loud_follows : profile.

  (** The tools: gimli is told the pointer size of the machine they run on. *)
  Section SameWidth.
    Hypothesis W : usize_bits md = usize_bits md'.
    Lemma setup_same l : tool_setup md l = tool_setup md' l.
    Proof. unfold tool_setup. rewrite W. reflexivity. Qed.
    Lemma main_follows args file : same_or_panic (dwarf2sframe2_main md args file) (dwarf2sframe2_main md' args file).
    Proof.
      unfold dwarf2sframe2_main. destruct file as [file|]; [|follow]. apply follows_bind; [follow|intros a].
      destruct (section_by_name _ _); [|follow]. destruct (elf_eh_frame file); [|follow]. rewrite setup_same. follow.
    Qed.
    Lemma main_loud_follows pr args file :
      same_or_cut (dwarf2sframe2_main_loud pr md args file) (dwarf2sframe2_main_loud pr md' args file).
    Proof.
      unfold dwarf2sframe2_main_loud. destruct file as [file|]; [|follow]. apply cut_bind; [follow|intros a].
      destruct (section_by_name _ _); [|follow]. destruct (elf_eh_frame file); [|follow]. rewrite setup_same. follow.
    Qed.
    Lemma v1_main_follows native p file : same_or_panic (v1_main md native p file) (v1_main md' native p file).
    Proof.
      unfold v1_main. destruct file as [file|]; [|follow].
      destruct (section_by_name _ _); [|follow]. destruct (elf_eh_frame file); [|follow]. rewrite setup_same. follow.
    Qed.
    Lemma v1_main_loud_follows p native file : same_or_cut (v1_main_loud p md native file) (v1_main_loud p md' native file).
    Proof.
      unfold v1_main_loud. destruct file as [file|]; [|follow].
      destruct (section_by_name _ _); [|follow]. destruct (elf_eh_frame file); [|follow]. rewrite setup_same. follow.
    Qed.
  End SameWidth.

  Lemma fde_print_follows p m o n c f : same_or_cut (fde_print p md m o n c f) (fde_print p md' m o n c f).
  Proof. unfold fde_print. follow. Qed.
  Hint Resolve fde_print_follows : profile.
  Lemma entries_print_follows p m en : forall l, same_or_cut (dd_entries_print p md m l en) (dd_entries_print p md' m l en).
  Proof. induction l as [|[c|o n c f] t IH]; cbn [dd_entries_print]; follow. Qed.
  Hint Resolve entries_print_follows : profile.
  Lemma dump_file_follows p file : usize_bits md = usize_bits md' \/ elf_address_size (elf_architecture (dd_elf file)) <> None ->
    same_or_cut (dump_file p md file) (dump_file p md' file).
  Proof.
    intros W. unfold dump_file. cbv zeta. destruct (section_by_name _ _); [|follow]. destruct (dd_parse file); [|follow].
    assert (E : forall l, dwarfdump_setup md (elf_architecture (dd_elf file)) l = dwarfdump_setup md' (elf_architecture (dd_elf file)) l).
    { intros l. unfold dwarfdump_setup. destruct (elf_address_size _); [reflexivity|]. destruct W as [W|W]; [rewrite W; reflexivity|congruence]. }
    rewrite E. follow.
  Qed.

  Lemma dump_row_follows E sf fr : same_or_panic (@dump_row E md sf fr) (dump_row md' sf fr).
  Proof. unfold dump_row. follow. Qed.
  Hint Resolve dump_row_follows : profile.
  Lemma dump_rows_follows e sf : forall fuel it, same_or_panic (dump_rows fuel md e sf it) (dump_rows fuel md' e sf it).
  Proof. induction fuel as [|k IH]; intros it; cbn [dump_rows]; [follow|]. rewrite fri_next_same. follow. Qed.
  Hint Resolve dump_rows_follows : profile.
  Lemma dump_fdes_follows e sf : forall fuel idx it, same_or_panic (dump_fdes fuel md e sf idx it) (dump_fdes fuel md' e sf idx it).
  Proof. induction fuel as [|k IH]; intros idx it; cbn [dump_fdes]; unfold dump_fde; follow. Qed.
  Hint Resolve dump_fdes_follows : profile.
  Lemma dump_follows e sf : same_or_panic (dump md e sf) (dump md' e sf).
  Proof. unfold dump. follow. Qed.
  Hint Resolve dump_follows : profile.
  Lemma dump_main_follows native file : usize_bits md <= usize_bits md' ->
    (forall f data, file = Some f -> elf_sframe f = Some data -> rust_slice md data) ->
    same_or_panic (sframedump_main md native file) (sframedump_main md' native file).
  Proof.
    intros W L. unfold sframedump_main. destruct file as [file|]; [|follow].
    destruct (section_by_name _ _); [|follow]. destruct (elf_sframe file) as [data|] eqn:Ed; [|follow].
    pose proof (load_follows native data W (L _ _ eq_refl Ed)). follow.
  Qed.

  (** What sframedump has printed when it panics. *)
  Lemma rows_run_follows e sf : forall fuel it, same_or_cut (dump_rows_run fuel md e sf it) (dump_rows_run fuel md' e sf it).
  Proof.
    induction fuel as [|k IH]; intros it; cbn [dump_rows_run]; [follow|]. rewrite fri_next_same.
    destruct (fri_next md' e it) as [[[[fr|er]|] it']|er|]; try apply cut_refl.
    destruct (dump_row_follows fuel_error sf fr) as [-> | ->].
    - left. split; [reflexivity|eexists; reflexivity].
    - destruct (dump_row md' sf fr); try apply cut_refl. cbv zeta. destruct (IH it') as [[H1 [rest H2]]|H].
      + left. cbn [fst snd]. rewrite H1, H2. split; [reflexivity|eexists; reflexivity].
      + rewrite H. apply cut_refl.
  Qed.
  Lemma fde_run_follows e sf idx en : same_or_cut (dump_fde_run md e sf idx en) (dump_fde_run md' e sf idx en).
  Proof.
    unfold dump_fde_run. cbv zeta. destruct (rows_run_follows e sf (fri_fuel (fres en)) (fres en)) as [[H1 [rest H2]]|H].
    - left. cbn [fst snd]. rewrite H1, H2. split; [reflexivity|]. rewrite app_nil_r, <- app_assoc. eexists; reflexivity.
    - rewrite H. apply cut_refl.
  Qed.
  Lemma fdes_run_follows e sf : forall fuel idx it, same_or_cut (dump_fdes_run fuel md e sf idx it) (dump_fdes_run fuel md' e sf idx it).
  Proof.
    induction fuel as [|k IH]; intros idx it; cbn [dump_fdes_run]; [follow|]. destruct (fdi_next it) as [[en|] it']; [|follow].
    cbv zeta. destruct (fde_run_follows e sf idx en) as [[H1 [rest H2]]|H].
    - left. rewrite H1. cbn [fst snd]. split; [reflexivity|]. rewrite H2. destruct (snd (dump_fde_run md' e sf idx en)); cbn [fst snd]; rewrite <- ?app_assoc; eexists; reflexivity.
    - rewrite H. destruct (snd (dump_fde_run md' e sf idx en)); try apply cut_refl. destruct (IH (idx + 1) it') as [[H1 [rest H2]]|H'].
      + left. cbn [fst snd]. rewrite H1, H2. split; [reflexivity|]. rewrite app_assoc. eexists; reflexivity.
      + rewrite H'. apply cut_refl.
  Qed.
  Lemma dump_run_follows e sf : same_or_cut (dump_run md e sf) (dump_run md' e sf).
  Proof.
    unfold dump_run. cbv zeta. destruct (fdes_run_follows e sf (S (List.length (it_fdes (fdes sf)))) 0 (fdes sf)) as [[H1 [rest H2]]|H].
    - left. cbn [fst snd]. rewrite H1, H2. split; [reflexivity|eexists; reflexivity].
    - rewrite H. apply cut_refl.
  Qed.

  Lemma section_debug_same dt e sf : section_debug dt md e sf = section_debug dt md' e sf.
  Proof.
    unfold section_debug. f_equal. induction (all_fdes sf) as [|en t IH]; cbn [entries_debug]; [reflexivity|].
    unfold entry_debug. rewrite all_fres_same, IH. reflexivity.
  Qed.
  Lemma section_text_same alt dt e sf : section_text alt dt md e sf = section_text alt dt md' e sf.
  Proof. unfold section_text. rewrite section_debug_same. reflexivity. Qed.
End Profiles.

(** Both directions. *)
Lemma same_stricter md md' : same_checks md md' -> stricter md md' /\ stricter md' md.
Proof. intros (A & B & C & D & F). split; constructor; auto; congruence. Qed.
Lemma both_ways {E A} (a b : outcome E A) : same_or_panic a b -> same_or_panic b a -> a = b.
Proof. intros [->| ->] [H|H]; congruence. Qed.
Lemma both_cuts {T E A} (a b : list T * outcome E A) : same_or_cut a b -> same_or_cut b a -> a = b.
Proof.
  destruct a as [l o], b as [l' o']. intros [[H1 [r1 H2]]|H] [[H3 [r2 H4]]|H']; cbn in *; try congruence.
  subst o o'. f_equal. rewrite H2, <- app_assoc in H4. assert (E0 : r1 ++ r2 = []).
  { apply (app_inv_head l). rewrite app_nil_r. congruence. }
  apply app_eq_nil in E0. destruct E0 as [-> ->]. rewrite H2. symmetry. apply app_nil_r.
Qed.

Lemma unchecked_load md md' e bs : wf_mode md -> wf_mode md' -> rust_slice md bs -> rust_slice md' bs ->
  overflow_checks md = false -> overflow_checks md' = false -> load md e bs = load md' e bs.
Proof.
  intros H H' L L' O O'.
  destruct (load_spec md e bs H L) as [|?|?|? ? ? ? Hn|?|?], (load_spec md' e bs H' L') as [|?|?|? ? ? ? Hn'|?|?];
    try reflexivity; try lia; try contradiction; congruence.
Qed.
