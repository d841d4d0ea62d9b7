(** The repaired converter: rows, functions, sections. *)
From Verif Require Export ConvRepairedSpec.
From Verif Require Import BaseFacts MergeRowFacts WriteFacts ConvErrors.

(** ** Without the repairs *)

Lemma unrepaired_row md op c f r : convert_row_with no_cfixes md op c f r = convert_row md op f r.
Proof.
  unfold convert_row_with, convert_row, warn_with. cbn [fix_sp fix_column fix_sign fix_link fix_reject no_cfixes andb].
  destruct (dr_cfa r) as [reg o|]; [|reflexivity].
  destruct (if reg =? _ then _ else _) as [base|]; [|reflexivity].
  destruct (sub_u64 md (dr_start r) (df_start f)) as [d| |]; cbn [bind]; try reflexivity.
  destruct (negb (row_start_ok d)); [reflexivity|]. destruct (negb (in_i32b o)); [reflexivity|].
  destruct (dr_register r (arch_fp (op_arch op))) as [| |x| | | | | |]; try reflexivity; try (destruct (in_i32b x); [|reflexivity]);
    (destruct (dr_register r (arch_ra (op_arch op))) as [| |y| | | | | |]; try reflexivity; destruct (in_i32b y); reflexivity).
Qed.

Lemma unrepaired_rows md op c f l : forall b, convert_rows_with no_cfixes md op c f l b = as_before (convert_rows md op f l b).
Proof.
  induction l as [|r t IH]; intros b; cbn [convert_rows_with convert_rows]; [reflexivity|].
  destruct (dr_start r =? dr_end r); [apply IH|]. cbn [fix_reject no_cfixes andb]. unfold sub_u64.
  destruct (0 <=? dr_start r - df_start f); [|destruct (overflow_checks md); [reflexivity|]]; cbn [bind];
    (destruct (negb (row_start_ok _)); [reflexivity|]); rewrite unrepaired_row;
    (destruct (convert_row md op f r) as [[nr| |er]| |]; cbn [lift bind as_before]; try reflexivity;
     try (match goal with x : never |- _ => destruct x end);
     match goal with |- context [fdb_row ?b ?x] => destruct (fdb_row b x); cbn [bind]; try reflexivity; apply IH end).
Qed.

Lemma unrepaired_fde md op c s f : convert_fde_with no_cfixes md op c s f = as_before (convert_fde md op s f).
Proof.
  unfold convert_fde_with, convert_fde. cbn [fix_end fix_dump no_cfixes negb andb orb]. rewrite Bool.andb_true_r, Bool.orb_false_r.
  assert (HD : (if op_debugdump op then let* _ := add_u64 md (df_start f) (df_len f) in
      match df_dump f with Some g => Err (AsBefore (InvalidDwarfFde g)) | None => Ok tt end else Ok tt) =
    as_before (if op_debugdump op then let* _ := add_u64 md (df_start f) (df_len f) in
      match df_dump f with Some g => Err (InvalidDwarfFde g) | None => Ok tt end else Ok tt)).
  { destruct (op_debugdump op); [|reflexivity]. unfold add_u64. destruct (_ <? 2 ^ 64); [|destruct (overflow_checks md); [reflexivity|]];
      cbn [bind]; destruct (df_dump f); reflexivity. }
  rewrite HD. clear HD. match goal with |- context [as_before (if op_debugdump op then ?x else ?y)] =>
    destruct (if op_debugdump op then x else y) as [u|er|] end; cbn [bind as_before]; try reflexivity.
  destruct (i32_max <? df_start f); [reflexivity|]. destruct (i32_max <? df_len f); [reflexivity|].
  destruct (df_rows f) as [rows|g]; [|reflexivity]. rewrite unrepaired_rows.
  destruct (convert_rows md op f (rows_list rows) _) as [b|er|]; cbn [bind as_before]; try reflexivity.
  destruct (rows_end rows); [reflexivity|].
  destruct (op_merge_fres op).
  - destruct (of_fuel (merge_adjacent_fres b)) as [b'| |]; cbn [bind as_before]; try reflexivity.
    destruct (sfb_fde s b') as [|[]|]; reflexivity.
  - cbn [bind]. destruct (sfb_fde s b) as [|[]|]; reflexivity.
Qed.

Lemma unrepaired_entries md op c l : forall s, convert_entries_with no_cfixes md op c l s = as_before (convert_entries md op l s).
Proof.
  induction l as [|[|g|f] t IH]; intros s; cbn [convert_entries_with convert_entries]; [reflexivity|apply IH|reflexivity|].
  rewrite unrepaired_fde. destruct (convert_fde md op s f); cbn [bind as_before]; [apply IH|reflexivity|reflexivity].
Qed.

Theorem conv_unrepaired md op c eh : dwarf2sframe_with no_cfixes md op c eh = as_before (dwarf2sframe md op eh).
Proof.
  unfold dwarf2sframe_with, dwarf2sframe, convert. rewrite unrepaired_entries.
  destruct (convert_entries md op (ents_list (eh_entries eh)) _) as [s| |]; cbn [bind as_before]; try reflexivity.
  destruct (ents_end (eh_entries eh)); [reflexivity|]. cbn [bind].
  destruct (op_merge_fdes op); [|reflexivity]. destruct (of_fuel _); reflexivity.
Qed.

(** ** Rows *)

(** What SFrame can say of a row, as a function. *)
Definition express (a : arch) (c : Z) (r : dw_row) : option (base_reg * bool * Z * option Z * option Z) :=
  match dr_cfa r with
  | CfaExpression _ => None
  | CfaReg reg cfa =>
      match (if reg =? reg_sp a then Some Sp else if reg =? reg_fp a then Some Fp else None) with
      | None => None
      | Some base =>
          if in_i32b cfa && sp_is_cfa a r && (c =? reg_ra a) then
            match (match dr_register r (reg_fp a) with
                   | ROffset o => if in_i32b o then Some (Some o) else None
                   | RSameValue | RUndefined => Some None
                   | _ => None
                   end) with
            | None => None
            | Some fp =>
                match dr_register r (reg_ra a) with
                | ROffset ra => if in_i32b ra then Some (base, signed_here a r, cfa, Some ra, fp) else None
                | RSameValue | RUndefined =>
                    if is_aarch64 a && match fp with None => true | Some _ => false end
                    then Some (base, signed_here a r, cfa, None, fp) else None
                | _ => None
                end
            end
          else None
      end
  end.

Lemma sp_is_cfa_spec a r : sp_is_cfa a r = true <->
  dr_register r (reg_sp a) = RUndefined \/ dr_register r (reg_sp a) = RValOffset 0.
Proof.
  unfold sp_is_cfa. change arch_sp with reg_sp. destruct (dr_register r (reg_sp a)); split; try discriminate; auto;
    try (intros [|]; discriminate).
  - intros H. apply Z.eqb_eq in H. subst. auto.
  - intros [|[= ->]]; [discriminate|reflexivity].
Qed.

Lemma signed_here_spec a r : signed_here a r = true <-> signed_row a r.
Proof.
  unfold signed_here, signed_row, ra_signed. destruct a; cbn [is_aarch64 andb].
  - split; [discriminate|intros [[=] _]].
  - destruct (dr_register r 34); split; try discriminate; try (intros [_ [=]]).
    + intros H. apply Z.eqb_eq in H. subst. auto.
    + subst. reflexivity.
Qed.

Lemma express_spec a c r base m cfa ra fp :
  express a c r = Some (base, m, cfa, ra, fp) <-> expressible a r c base m cfa ra fp.
Proof.
  unfold express, expressible. rewrite <- sp_is_cfa_spec, <- signed_here_spec. split.
  - destruct (dr_cfa r) as [reg o|]; [|discriminate].
    destruct (Z.eqb_spec reg (reg_sp a)) as [->|Hsp];
      [|destruct (Z.eqb_spec reg (reg_fp a)) as [->|Hfp]; [|discriminate]].
    all: destruct (in_i32b o) eqn:Ec; cbn [andb]; [|discriminate]; apply in_i32b_spec in Ec.
    all: destruct (sp_is_cfa a r) eqn:Es; cbn [andb]; [|discriminate].
    all: destruct (Z.eqb_spec c (reg_ra a)) as [->|]; [|discriminate].
    all: destruct (dr_register r (reg_fp a)) as [| |x| | | | | |]; try discriminate.
    all: try (destruct (in_i32b x) eqn:Ex; [apply in_i32b_spec in Ex|discriminate]).
    all: destruct (dr_register r (reg_ra a)) as [| |y| | | | | |]; try discriminate.
    all: try (destruct (in_i32b y) eqn:Ey; [apply in_i32b_spec in Ey|discriminate]).
    all: try (destruct a; cbn [is_aarch64 andb]; [discriminate|]); try discriminate.
    all: intros [= <- <- <- <- <-]; cbn; repeat (split; [tauto|]); tauto.
  - intros (-> & Hc & -> & -> & Hm & Hf & Hr). apply in_i32b_spec in Hc. rewrite Hc, Z.eqb_refl. cbn [andb].
    assert ((if reg_base a base =? reg_sp a then Some Sp
             else if reg_base a base =? reg_fp a then Some Fp else None) = Some base) as ->
      by (destruct a, base; reflexivity).
    assert (signed_here a r = m) as ->.
    { destruct m, (signed_here a r); try reflexivity; [destruct (proj1 Hm eq_refl)|destruct (proj2 Hm eq_refl)]; reflexivity. }
    destruct fp as [o|].
    + destruct Hf as [-> Ho]. apply in_i32b_spec in Ho. rewrite Ho. destruct ra as [x|].
      * destruct Hr as [-> Hx]. apply in_i32b_spec in Hx. rewrite Hx. reflexivity.
      * destruct Hr as (_ & [=] & _).
    + assert ((match dr_register r (reg_fp a) with
         | ROffset o => if in_i32b o then Some (Some o) else None
         | RSameValue | RUndefined => Some None | _ => None end) = Some None) as -> by (destruct Hf as [-> | ->]; reflexivity).
      destruct ra as [x|].
      * destruct Hr as [-> Hx]. apply in_i32b_spec in Hx. rewrite Hx. reflexivity.
      * destruct Hr as (-> & _ & [-> | ->]); reflexivity.
Qed.

Lemma express_none a c r : express a c r = None <-> inexpressible a r c.
Proof.
  unfold inexpressible. split.
  - intros H base m cfa ra fp Hr. apply express_spec in Hr. congruence.
  - intros H. destruct (express a c r) as [[[[[base m] cfa] ra] fp]|] eqn:E; [|reflexivity].
    apply express_spec in E. exfalso. eapply H, E.
Qed.

(** The row handed to [row()]. *)
Definition ximg (a : arch) (c : Z) (f : dw_fde) (r : dw_row) : row :=
  match express a c r with
  | Some (base, m, cfa, ra, fp) => row_mangled_ra_p m (row_new base (off f r) {| ro_cfa := cfa; ro_ra := ra; ro_fp := fp |})
  | None => row_invalid (off f r)
  end.

Lemma ximg_start a c f r : r_start (ximg a c f r) = off f r.
Proof. unfold ximg. destruct (express a c r) as [[[[[? ?] ?] ?] ?]|]; reflexivity. Qed.

Lemma xrow_eq md op c f r : 0 <= off f r < i32_max ->
  convert_row_with all_cfixes md op c f r =
  match express (op_arch op) c r with Some _ => Ok (RowOk (ximg (op_arch op) c f r)) | None => Ok RowWarning end.
Proof.
  intros Hd. unfold convert_row_with, ximg, express, warn_with. cbn [fix_sp fix_column fix_sign fix_link fix_reject all_cfixes andb].
  change arch_fp with reg_fp. change arch_sp with reg_sp. change arch_ra with reg_ra.
  destruct (dr_cfa r) as [reg cfa|]; [|reflexivity].
  destruct (if reg =? reg_sp (op_arch op) then Some Sp else if reg =? reg_fp (op_arch op) then Some Fp else None)
    as [base|]; [|reflexivity].
  unfold off in *. rewrite sub_u64_ok by lia. cbn [bind].
  unfold row_start_ok. destruct (Z.ltb_spec (dr_start r - df_start f) i32_max); [|lia]. cbn [negb].
  destruct (in_i32b cfa); cbn [negb andb]; [|reflexivity].
  destruct (sp_is_cfa (op_arch op) r); cbn [negb andb]; [|reflexivity].
  destruct (c =? reg_ra (op_arch op)); cbn [negb andb]; [|reflexivity].
  destruct (dr_register r (reg_fp (op_arch op))) as [| |o| | | | | |]; try reflexivity;
    try (destruct (in_i32b o); [|reflexivity]);
    (destruct (dr_register r (reg_ra (op_arch op))) as [| |o'| | | | | |]; try reflexivity;
     try (destruct (in_i32b o'); reflexivity); destruct (is_aarch64 (op_arch op)); reflexivity).
Qed.

(** One row. *)
Definition xstep (a : arch) (c : Z) (f : dw_fde) (b : fdb) (r : dw_row) : outcome repair_error fdb :=
  if wideb r then
    if off f r <? 0 then Err (RowInFront (dr_start r))
    else if i32_max <=? off f r then Err (AsBefore (InvalidRowOffset (dr_start r) (off f r)))
    else match fdb_row b (ximg a c f r) with Ok b' => Ok b' | Err er => Err (RowRefused (dr_start r) er) | Panic => Panic end
  else Ok b.

Lemma xrows_step md op c f r t b :
  convert_rows_with all_cfixes md op c f (r :: t) b =
  (let* b' := xstep (op_arch op) c f b r in convert_rows_with all_cfixes md op c f t b').
Proof.
  cbn [convert_rows_with]. unfold xstep, wideb. cbn [fix_reject all_cfixes andb].
  destruct (dr_start r =? dr_end r); cbn [negb]; [reflexivity|]. unfold off.
  destruct (Z.ltb_spec (dr_start r) (df_start f)), (Z.ltb_spec (dr_start r - df_start f) 0); try lia; [reflexivity|].
  rewrite sub_u64_ok by lia. cbn [bind]. unfold row_start_ok.
  destruct (Z.leb_spec i32_max (dr_start r - df_start f)), (Z.ltb_spec (dr_start r - df_start f) i32_max); try lia; cbn [negb]; [reflexivity|].
  rewrite xrow_eq by (unfold off; lia).
  assert (HE : forall x, match fdb_row b x with Ok b' => convert_rows_with all_cfixes md op c f t b'
      | Err er => Err (RowRefused (dr_start r) er) | Panic => Panic end =
    (let* b' := match fdb_row b x with Ok b' => Ok b' | Err er => Err (RowRefused (dr_start r) er) | Panic => Panic end in
     convert_rows_with all_cfixes md op c f t b')) by (intros x; destruct (fdb_row b x); reflexivity).
  destruct (express (op_arch op) c r) as [p|] eqn:E; cbn [lift bind]; rewrite HE; [reflexivity|].
  unfold ximg. rewrite E. reflexivity.
Qed.

(** ** Rows of a function *)

Record xpartway (a : arch) (c : Z) (o : sframe_options) (f : dw_fde) (pre : list dw_row) (b : fdb) : Prop := {
  xp_rows : add_rows (fdb_new o (df_start f) (df_len f)) (map (ximg a c f) (filter wideb pre)) = Ok b }.

Section Partway.
  Variables (a : arch) (c : Z) (o : sframe_options) (f : dw_fde).
  Hypothesis Hfp : so_fixed_fp o = None.

  Lemma xpartway_inv pre b : xpartway a c o f pre b ->
    sorted (fb_fres b) /\ keyed (fb_fres b) /\ fb_options b = o /\ fb_start b = df_start f /\
    fb_size b = df_len f /\ fb_rep_size b = None /\ fb_pauth b = KeyA /\
    Permutation (rows_of b) (map (fun r => kept_row o (ximg a c f r)) (filter wideb pre)).
  Proof.
    intros [H]. apply add_rows_inv in H; [|apply sorted_nil|intros ? ? []].
    destruct H as (S & K & E1 & E2 & E3 & E4 & E5 & E6). cbn in *. rewrite app_nil_r, map_map in E6. auto 10.
  Qed.

  Lemma xpartway_row pre b r : xpartway a c o f pre b -> wideb r = true -> 0 <= off f r < i32_max ->
    (exists b', fdb_row b (ximg a c f r) = Ok b' /\ xpartway a c o f (pre ++ [r]) b' /\ no_fault (row_faults a (so_fixed_ra o) c f pre r)) \/
    (exists er, fdb_row b (ximg a c f r) = Err er /\ first_fault (row_faults a (so_fixed_ra o) c f pre r) (RowRefused (dr_start r) er)).
  Proof.
    intros Hp Hw Hoff. pose proof (xpartway_inv _ _ Hp) as (S & K & E1 & E2 & E3 & E4 & E5 & E6).
    assert (F1 : ~ dr_start r < df_start f) by (unfold off in Hoff; lia).
    assert (F2 : ~ i32_max <= off f r) by lia.
    (* condition 4 *)
    assert (D4 : (forall x, r_offsets (ximg a c f r) = Some x -> agrees (so_fixed_ra (fb_options b)) (ro_ra x)) /\
        ~ (exists base m cfa ra fp x, expressible a r c base m cfa (Some ra) fp /\ so_fixed_ra o = Some x /\ ra <> x) \/
      ~ (forall x, r_offsets (ximg a c f r) = Some x -> agrees (so_fixed_ra (fb_options b)) (ro_ra x)) /\
        exists base m cfa ra fp x, expressible a r c base m cfa (Some ra) fp /\ so_fixed_ra o = Some x /\ ra <> x).
    { rewrite E1. unfold ximg. destruct (express a c r) as [[[[[base m] cfa] [ra|]] fp]|] eqn:E.
      2:{ left. split; [intros x [= <-] y g _ [=]|]. intros (base' & m' & cfa' & ra' & fp' & x & H & _).
          apply express_spec in H. congruence. }
      2:{ left. split; [intros x [=]|]. intros (base' & m' & cfa' & ra' & fp' & x & H & _). apply express_spec in H. congruence. }
      destruct (so_fixed_ra o) as [x|] eqn:Ex.
      2:{ left. split; [intros y _ z g [=]|]. intros (base' & m' & cfa' & ra' & fp' & x & _ & [=] & _). }
      destruct (Z.eq_dec ra x) as [->|Hne].
      - left. split; [intros y [= <-] z g [= <-] [= <-]; reflexivity|].
        intros (base' & m' & cfa' & ra' & fp' & x' & H & [= <-] & Hne). apply express_spec in H. apply Hne. congruence.
      - right. split.
        + intros H. apply Hne. apply (H _ eq_refl x ra eq_refl eq_refl).
        + apply express_spec in E. exists base, m, cfa, ra, fp, x. auto. }
    (* condition 6 *)
    assert (D6 : (forall r', In r' (rows_of b) -> r_start r' <> r_start (ximg a c f r)) /\
        ~ (exists r', In r' pre /\ wide r' /\ dr_start r' = dr_start r) \/
      ~ (forall r', In r' (rows_of b) -> r_start r' <> r_start (ximg a c f r)) /\
        exists r', In r' pre /\ wide r' /\ dr_start r' = dr_start r).
    { rewrite ximg_start.
      assert (HI : forall r', In r' pre -> wide r' -> In (kept_row o (ximg a c f r')) (rows_of b)).
      { intros r' Hi Hwr. eapply Permutation_in; [symmetry; exact E6|]. apply in_map_iff. exists r'. split; [reflexivity|].
        apply filter_In. split; [exact Hi|apply wideb_spec, Hwr]. }
      destruct (in_dec Z.eq_dec (off f r) (map r_start (rows_of b))) as [Hi|Hi].
      - right. apply in_map_iff in Hi. destruct Hi as (x & Hx & Hxi). split; [intros H; exact (H x Hxi Hx)|].
        eapply Permutation_in in Hxi; [|exact E6]. apply in_map_iff in Hxi. destruct Hxi as (r' & <- & Hr').
        apply filter_In in Hr'. destruct Hr' as [Hr' Hwr]. cbn in Hx. rewrite ximg_start in Hx.
        exists r'. split; [exact Hr'|]. split; [apply wideb_spec, Hwr|unfold off in Hx; lia].
      - left. split.
        + intros x Hx Heq. apply Hi, in_map_iff. eauto.
        + intros (r' & H1 & H2 & H3). apply Hi, in_map_iff. exists (kept_row o (ximg a c f r')). split; [|apply HI; assumption].
          cbn. rewrite ximg_start. unfold off. lia. }
    unfold fdb_row. destruct (row_cases b (ximg a c f r) S K) as [[HF E]|(er & Hv & E)]; rewrite E.
    - left. eexists. split; [reflexivity|]. split.
      + constructor. rewrite filter_app, map_app, add_rows_app.
        destruct Hp as [->]. cbn [filter]. rewrite Hw. cbn [map bind add_rows]. unfold fdb_row. rewrite E. reflexivity.
      + apply conditions_unfold in HF. rewrite ximg_start in HF. destruct HF as (C1 & _ & C3 & C4 & _ & C6).
        unfold no_fault, row_faults. repeat (constructor; cbn [fst]); try (rewrite E3 in C3; lia).
        * destruct D4 as [[_ D4]|[D4 _]]; [exact D4|]. destruct D4. exact C4.
        * destruct D6 as [[_ D6]|[D6 _]]; [exact D6|]. destruct D6. rewrite ximg_start. exact C6.
    - right. exists er. split; [reflexivity|]. unfold row_faults. cbn [first_fault].
      right. split; [exact F1|]. right. split; [exact F2|].
      destruct Hv as (p & cd & q & Hl & Hn & HF). unfold row_conditions in Hl. rewrite ximg_start, E3 in Hl.
      destruct p as [|p1 p]; cbn [app] in Hl.
      { injection Hl as <- <- _. left. split; [lia|reflexivity]. }
      injection Hl as <- Hl. inversion HF as [|? ? C1 HF1]; subst. cbn [fst] in C1. right. split; [lia|].
      destruct p as [|p1 p]; cbn [app] in Hl.
      { injection Hl as <- <- _. exfalso. apply Hn. rewrite E4. discriminate. }
      injection Hl as <- Hl. inversion HF1 as [|? ? _ HF2]; subst.
      destruct p as [|p1 p]; cbn [app] in Hl.
      { injection Hl as <- <- _. left. split; [lia|reflexivity]. }
      injection Hl as <- Hl. inversion HF2 as [|? ? C3 HF3]; subst. cbn [fst] in C3. right. split; [lia|].
      destruct p as [|p1 p]; cbn [app] in Hl.
      { injection Hl as <- <- _. left. split; [|reflexivity]. destruct D4 as [[D4 _]|[_ D4]]; [contradiction|exact D4]. }
      injection Hl as <- Hl. inversion HF3 as [|? ? C4 HF4]; subst. cbn [fst] in C4. right.
      split; [destruct D4 as [[_ D4]|[D4 _]]; [exact D4|contradiction]|].
      destruct p as [|p1 p]; cbn [app] in Hl.
      { injection Hl as <- <- _. exfalso. apply Hn. rewrite Hfp. intros y _ x g [=]. }
      injection Hl as <- Hl. inversion HF4 as [|? ? _ HF5]; subst.
      destruct p as [|p1 p]; cbn [app] in Hl.
      { injection Hl as <- <- _. left. split; [|reflexivity]. rewrite ximg_start in D6.
        destruct D6 as [[D6 _]|[_ D6]]; [contradiction|exact D6]. }
      injection Hl as _ Hl. destruct p; discriminate.
  Qed.
End Partway.

Lemma faultless_snoc a fixed c f pre r : rows_faultless a fixed c f pre ->
  (wide r -> no_fault (row_faults a fixed c f pre r)) -> rows_faultless a fixed c f (pre ++ [r]).
Proof.
  intros Hf Hx p y q Heq Hy. destruct q as [|z q] using rev_ind.
  - apply app_inj_tail in Heq. destruct Heq as [<- <-]. auto.
  - rewrite app_comm_cons, app_assoc in Heq. apply app_inj_tail in Heq. destruct Heq as [-> _].
    eapply Hf; [reflexivity|exact Hy].
Qed.

(** Exactly one of: all rows are fine; or there is a first fault. *)
Lemma xrows_fate md op c o f : so_fixed_fp o = None -> forall l pre b,
  xpartway (op_arch op) c o f pre b -> rows_faultless (op_arch op) (so_fixed_ra o) c f pre ->
  (exists b', convert_rows_with all_cfixes md op c f l b = Ok b' /\ xpartway (op_arch op) c o f (pre ++ l) b' /\
     rows_faultless (op_arch op) (so_fixed_ra o) c f (pre ++ l)) \/
  (exists pre' r post er, l = pre' ++ r :: post /\ rows_faultless (op_arch op) (so_fixed_ra o) c f (pre ++ pre') /\ wide r /\
     first_fault (row_faults (op_arch op) (so_fixed_ra o) c f (pre ++ pre') r) er /\ convert_rows_with all_cfixes md op c f l b = Err er).
Proof.
  intros Hfp. induction l as [|r t IH]; intros pre b Hp Hf.
  { left. exists b. rewrite app_nil_r. auto. }
  rewrite xrows_step.
  assert (Hnext : forall b', xpartway (op_arch op) c o f (pre ++ [r]) b' ->
    rows_faultless (op_arch op) (so_fixed_ra o) c f (pre ++ [r]) ->
    (exists b'', convert_rows_with all_cfixes md op c f t b' = Ok b'' /\ xpartway (op_arch op) c o f (pre ++ r :: t) b'' /\
     rows_faultless (op_arch op) (so_fixed_ra o) c f (pre ++ r :: t)) \/
    (exists pre' r' post er, r :: t = pre' ++ r' :: post /\
     rows_faultless (op_arch op) (so_fixed_ra o) c f (pre ++ pre') /\ wide r' /\
     first_fault (row_faults (op_arch op) (so_fixed_ra o) c f (pre ++ pre') r') er /\ convert_rows_with all_cfixes md op c f t b' = Err er)).
  { intros b' Hp' Hf'. destruct (IH (pre ++ [r]) b' Hp' Hf') as [(b'' & H1 & H2 & H3)|(pre' & r' & post & q & H1 & H2 & H3 & H4 & H5)].
    - left. exists b''. rewrite <- app_assoc in H2, H3. auto.
    - right. exists (r :: pre'), r', post, q. rewrite <- app_assoc in H2, H4. cbn [app] in *. split; [rewrite H1; reflexivity|auto]. }
  assert (Hstop : forall er, wide r -> first_fault (row_faults (op_arch op) (so_fixed_ra o) c f pre r) er ->
    (exists b', @Err repair_error fdb er = Ok b' /\ xpartway (op_arch op) c o f (pre ++ r :: t) b' /\
       rows_faultless (op_arch op) (so_fixed_ra o) c f (pre ++ r :: t)) \/
    (exists pre' r' post er', r :: t = pre' ++ r' :: post /\
       rows_faultless (op_arch op) (so_fixed_ra o) c f (pre ++ pre') /\ wide r' /\
       first_fault (row_faults (op_arch op) (so_fixed_ra o) c f (pre ++ pre') r') er' /\ @Err repair_error fdb er = Err er')).
  { intros er Hw Hq. right. exists [], r, t, er. rewrite app_nil_r. auto. }
  unfold xstep. destruct (wideb r) eqn:Ew.
  2:{ cbn [bind]. apply Hnext.
      - destruct Hp as [Hp]. constructor. rewrite filter_app. cbn [filter]. rewrite Ew, app_nil_r. exact Hp.
      - apply faultless_snoc; [exact Hf|]. intros Hw. apply wideb_spec in Hw. congruence. }
  assert (Hw : wide r) by (apply wideb_spec, Ew).
  destruct (Z.ltb_spec (off f r) 0) as [Hlt|Hge].
  { cbn [bind]. apply Hstop; [exact Hw|]. left. split; [unfold off in Hlt; lia|reflexivity]. }
  destruct (Z.leb_spec i32_max (off f r)) as [Hfar|Hnear].
  { cbn [bind]. apply Hstop; [exact Hw|]. right. split; [unfold off in Hge; lia|]. left. auto. }
  destruct (xpartway_row _ _ _ _ Hfp pre b r Hp Ew (conj Hge Hnear)) as [(b' & -> & Hp' & HN)|(er & -> & HE)]; cbn [bind].
  - apply Hnext; [exact Hp'|]. apply faultless_snoc; [exact Hf|]. intros _. exact HN.
  - apply Hstop; assumption.
Qed.
