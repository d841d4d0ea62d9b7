(** Where the stack grows down no offset is confused with another. *)
From Coq Require Import String ZArith List Lia.
From Verif Require Export DownSpec CfiTotal StdConv PipeFacts.
From Verif Require Import ProgramFacts.
From Verif Require Import TripWitness.
Import ListNotations.
Open Scope Z_scope.
Open Scope list_scope.

Lemma downward_stored cfa l m : 0 <= cfa -> Forall (fun k => k <= 0) l -> dominant (cfa :: l) = Some m ->
  (m = -128 \/ m = -32768) -> In (- m) (cfa :: l) -> False.
Proof.
  intros Hc Hl Hd Hm Hi. rewrite Forall_forall in Hl. cbn [dominant] in Hd.
  assert (E : cfa = - m) by (destruct Hi as [E|Hi]; [exact E|specialize (Hl _ Hi); lia]).
  destruct (dominant l) as [w|]; [|injection Hd as <-; lia].
  destruct (Z.ltb_spec (Z.abs cfa) (Z.abs w)); injection Hd as <-; lia.
Qed.

Lemma downward_for fixed cfa ra fp m : 0 <= cfa -> ra <= 0 -> (forall k, fp = Some k -> k <= 0) ->
  dominant (stored_for fixed cfa ra fp) = Some m -> (m = -128 \/ m = -32768) -> In (- m) (stored_for fixed cfa ra fp) -> False.
Proof.
  intros Hc Hr Hf. apply downward_stored; [exact Hc|].
  destruct fixed, fp as [k|]; cbn [app]; repeat constructor; auto.
Qed.

Lemma downward_no_clash a fixed r : downward_row a r -> ~ clash a fixed r.
Proof.
  intros (D1 & D2) (base & cfa & ra & fp & m & (R1 & _ & R2 & _ & R3) & Hd & Hm & Hi).
  apply (downward_for fixed cfa ra fp m); try assumption; [exact (D1 _ _ R1)|exact (D2 _ _ (or_introl eq_refl) R2)|].
  intros k ->. destruct R3 as [R3 _]. exact (D2 _ _ (or_intror eq_refl) R3).
Qed.

Lemma downward_no_v1_clash r : downward_row Amd64 r -> ~ v1_clash r.
Proof.
  intros (D1 & D2) (base & cfa & ra & fp & m & (R1 & _ & R2 & _ & R3) & Hd & Hm & Hi).
  apply (downward_for None cfa ra fp m); try assumption; [exact (D1 _ _ R1)|exact (D2 _ _ (or_introl eq_refl) R2)|].
  intros k ->. destruct R3 as [R3 _]. exact (D2 _ _ (or_intror eq_refl) R3).
Qed.

Lemma downward_not_tied r : downward_written r -> ~ tied r.
Proof.
  intros D (m & Hd & Hm & Hi). unfold stored_values in *. destruct (r_offsets r) as [o|] eqn:E; [|destruct Hi].
  destruct (D o E) as (D1 & D2 & D3). apply (downward_stored (ro_cfa o) _ m D1) in Hd; try assumption.
  destruct (ro_ra o) as [x|], (ro_fp o) as [y|]; cbn [app]; repeat constructor; auto.
Qed.

Lemma downward_unconfused a fixed c f : downward_program a c f -> unconfused a fixed c f.
Proof. intros D x st Hx S. apply downward_no_clash. exact (D x st Hx S). Qed.
Lemma downward_v1_unconfused c f : downward_program Amd64 c f -> v1_unconfused c f.
Proof. intros D x st Hx S. apply downward_no_v1_clash. exact (D x st Hx S). Qed.

Theorem down_rows a fixed r : downward_row a r -> ~ clash a fixed r /\ (a = Amd64 -> ~ v1_clash r).
Proof. intros D. split; [apply downward_no_clash; exact D|intros ->; apply downward_no_v1_clash; exact D]. Qed.

Theorem down_round_trip md md' e s bs :
  sfb_sized md s -> build md e s = Ok bs -> wf_mode md' -> rust_slice md' bs ->
  (forall b r, In b (fdes_of s) -> In r (rows_of b) -> downward_written r /\ ~ ambiguous (sb_options s) r) ->
  exists sf, load md' e bs = Ok sf /\
    Forall2 (fun b en => exists good, all_fres md' e en = Ok (map inl good) /\
      Forall2 (fun r fr => fre_start_address_offset fr = r_start r /\ observed sf fr = intended (sb_options s) r)
        (rows_of b) good) (fdes_of s) (all_fdes sf).
Proof.
  intros HZ B Hm Hs H. apply (trip_rows_good md md' e s bs HZ B Hm Hs).
  intros b r Hb Hr. destruct (H b r Hb Hr) as [D A]. split; [apply downward_not_tied; exact D|exact A].
Qed.

Theorem down_end_to_end md md' md'' op eh s e bs :
  eh_typed eh -> dwarf2sframe md op eh = Ok s ->
  build md' e s = Ok bs -> wf_mode md'' -> rust_slice md'' bs ->
  (forall f, last_at eh f -> rows_disjoint f /\ forall r, In r (wide_rows f) -> downward_row (op_arch op) r) ->
  exists sf, load md'' e bs = Ok sf /\
    (forall a r, dwarf_says eh a r -> exists u, section_says md'' e sf a u /\ matches (op_arch op) r u) /\
    (forall a u, section_says md'' e sf a u ->
       exists f r, last_at eh f /\ in_range (df_start f) (df_len f) a /\ In r (wide_rows f) /\ dr_start r <= a) /\
    (forall a u u', section_says md'' e sf a u -> section_says md'' e sf a u' -> u = u').
Proof.
  intros HT H B Hm Hs D. apply (conv_end_to_end md md' md'' op eh s e bs HT H B Hm Hs).
  intros f Hf. destruct (D f Hf) as [D1 D2]. split; [exact D1|]. intros r Hr. apply downward_no_clash, D2, Hr.
Qed.

Theorem down_v1_end_to_end md md' md'' p ents s e bs : ents_typed ents -> v1_convert md p ents = Ok s ->
  build md' e s = Ok bs -> wf_mode md'' -> rust_slice md'' bs ->
  (forall f r, v1_last ents f -> In r (dw_rows_of f) -> downward_row Amd64 r) ->
  exists sf, load md'' e bs = Ok sf /\
    (forall a f r, v1_last ents f -> in_range (df_start f) (df_len f) a -> In r (dw_rows_of f) -> dr_start r <= a ->
       (forall r', In r' (dw_rows_of f) -> dr_start r' <= a -> dr_start r' <= dr_start r) ->
       exists u, section_says md'' e sf a u /\
         (forall base cfa ra fp, v1_representable r base cfa ra fp -> u = Unwind base false (Some cfa) (Some ra) fp) /\
         ((forall base cfa ra fp, ~ v1_representable r base cfa ra fp) -> uw_cfa u = None /\ uw_mangled u = false)) /\
    (forall a u, section_says md'' e sf a u ->
       exists f r, v1_last ents f /\ in_range (df_start f) (df_len f) a /\ In r (dw_rows_of f) /\ dr_start r <= a) /\
    (forall a u u', section_says md'' e sf a u -> section_says md'' e sf a u' -> u = u').
Proof.
  intros HT H B Hm Hs D. apply (v1_end_to_end md md' md'' p ents s e bs HT H B Hm Hs).
  intros f r Hf Hr. apply downward_no_v1_clash. exact (D f r Hf Hr).
Qed.

Theorem down_standard md md' op eh s e bs :
  eh_typed eh -> dwarf2sframe md op eh = Ok s -> build md' e s = Ok bs ->
  (forall f, last_at eh f -> (exists c, follows_dwarf c f) /\ forall r, In r (wide_rows f) -> downward_row (op_arch op) r) ->
  (forall c f x, last_at eh f -> follows_dwarf c f -> in_range (df_start f) (df_len f) x ->
     exists st u, cfi_at c f x = Some st /\ std_says e bs x KeyA u /\ matches (op_arch op) (as_row st) u /\
       forall k u', std_says e bs x k u' -> k = KeyA /\ u' = u) /\
  forall x k u, std_says e bs x k u -> exists f, last_at eh f /\ in_range (df_start f) (df_len f) x.
Proof.
  intros HT H B D. apply (std_program_preserved md md' op eh s e bs HT H B).
  intros f Hf. destruct (D f Hf) as [D1 D2]. split; [exact D1|]. intros r Hr. apply downward_no_clash, D2, Hr.
Qed.

Theorem down_programs md md' op eh e : eh_typed eh -> ents_end (eh_entries eh) = None ->
  (forall x, In x (entries_of eh) -> match x with DwCie => True | DwBadFde _ => False
     | DwGoodFde f => ordinary op eh f /\ dump_fine md op f end) ->
  apart eh -> countable (function_count eh) (table_rows eh) ->
  (forall c f, last_at eh f -> follows_dwarf c f -> downward_program (op_arch op) c f) ->
  exists s bs, dwarf2sframe md op eh = Ok s /\ build md' e s = Ok bs /\
    zlen bs <= 28 + 20 * function_count eh + 17 * table_rows eh /\
    forall md'', wf_mode md'' -> rust_slice md'' bs ->
    exists sf, load md'' e bs = Ok sf /\
      (forall c f x, last_at eh f -> follows_dwarf c f -> in_range (df_start f) (df_len f) x ->
         exists st u, cfi_at c f x = Some st /\ section_says md'' e sf x u /\ matches (op_arch op) (as_row st) u /\
           forall u', section_says md'' e sf x u' -> u' = u) /\
      (forall x u, section_says md'' e sf x u -> exists f, last_at eh f /\ in_range (df_start f) (df_len f) x).
Proof.
  intros HT He Ho Ha Hk D. apply (ordinary_section md md' op eh e HT He Ho Ha Hk).
  intros c f Hf F. apply downward_unconfused. exact (D c f Hf F).
Qed.

Theorem down_v1_programs md md' p ents e : ents_typed ents -> ents_end ents = None ->
  (forall x, In x (ents_list ents) -> match x with DwCie => True | DwBadFde _ => False | DwGoodFde f => v1_ordinary p f end) ->
  apart (in_eh ents) -> countable (function_count (in_eh ents)) (v1_rows_total ents) ->
  (forall c f, v1_last ents f -> follows_dwarf c f -> downward_program Amd64 c f) ->
  exists s bs, v1_convert md p ents = Ok s /\ build md' e s = Ok bs /\
    zlen bs <= 28 + 20 * function_count (in_eh ents) + 17 * v1_rows_total ents /\
    forall md'', wf_mode md'' -> rust_slice md'' bs ->
    exists sf, load md'' e bs = Ok sf /\
      (forall c f x, v1_last ents f -> follows_dwarf c f -> in_range (df_start f) (df_len f) x ->
         exists st u, cfi_at c f x = Some st /\ section_says md'' e sf x u /\
           (forall base cfa ra fp, v1_representable (as_row st) base cfa ra fp -> u = Unwind base false (Some cfa) (Some ra) fp) /\
           ((forall base cfa ra fp, ~ v1_representable (as_row st) base cfa ra fp) -> uw_cfa u = None /\ uw_mangled u = false) /\
           forall u', section_says md'' e sf x u' -> u' = u) /\
      (forall x u, section_says md'' e sf x u -> exists f, v1_last ents f /\ in_range (df_start f) (df_len f) x).
Proof.
  intros HT He Ho Ha Hk D. apply (v1_ordinary_section md md' p ents e HT He Ho Ha Hk).
  intros c f Hf F. apply downward_v1_unconfused. exact (D c f Hf F).
Qed.

Theorem down_pipeline md md' args file a parse addr abi_name :
  let eh := file_eh md file parse in let op := cli_options args a (elf_endian file) in
  file_typed file -> arch_of (elf_architecture file) = Some a -> elf_eh_frame file = Some parse ->
  has_section (elf_sections file) ".eh_frame"%string addr -> ents_end (eh_entries eh) = None ->
  (forall x, In x (entries_of eh) -> match x with DwCie => True | DwBadFde _ => False
     | DwGoodFde f => ordinary op eh f /\ dump_fine md op f /\ ends_in_range f end) ->
  apart eh -> countable (function_count eh) (table_rows eh) ->
  (forall c f, last_at eh f -> follows_dwarf c f -> downward_program a c f) ->
  wf_mode md' -> (forall n, without newline_char (abi_name n)) ->
  exists out, dwarf2sframe2_main md args (Some file) = Ok out /\
    zlen (out_sframe out) <= 28 + 20 * function_count eh + 17 * table_rows eh /\
    forall dumped, holds_section dumped out -> rust_slice md' (out_sframe out) ->
    exists l h rest, sframedump_main md' (endian_of (elf_endian file)) (Some dumped) = Ok l /\
      read_dump (stdout_text abi_name l) = Some (h, rest) /\ stderr_text l = ""%string /\
      (forall c f x, last_at eh f -> follows_dwarf c f -> in_range (df_start f) (df_len f) x ->
         exists st u, cfi_at c f x = Some st /\ matches a (as_row st) u /\ dump_says rest x (looks u) /\
           forall v, dump_says rest x v -> v = looks u) /\
      forall x v, dump_says rest x v -> exists f, last_at eh f /\ in_range (df_start f) (df_len f) x.
Proof.
  intros eh op P1 P2 P3 P4 P5 P6 P7 P8 P9 P10 P11.
  apply (ordinary_pipeline md md' args file a parse addr abi_name P1 P2 P3 P4 P5 P6 P7 P8); try assumption.
  intros c f Hf F. apply downward_unconfused. exact (P9 c f Hf F).
Qed.

(** It is enough to look at the rows. *)
Lemma downward_table a c f : 0 <= df_len f -> follows_dwarf c f -> (forall r, In r (wide_rows f) -> downward_row a r) -> downward_program a c f.
Proof.
  intros Hl F D x st Hx S.
  assert (Hx' : df_start f <= x < df_start f + df_len f) by (unfold in_range in Hx; lia).
  destruct (follows_covers c f x Hl F Hx') as (r & Hr).
  destruct (follows_at c f x r Hl F ltac:(lia) Hr) as (t & T1 & T2 & T3). assert (t = st) by congruence. subst t.
  assert (Hw : In r (wide_rows f)).
  { destruct Hr as (R1 & R2). apply filter_In. split; [exact R1|]. unfold wideb. apply negb_true_iff, Z.eqb_neq. lia. }
  destruct (D r Hw) as (D1 & D2). unfold downward_row, as_row. rewrite T2. cbn [dr_cfa]. split; [exact D1|].
  intros n k Hn E. apply (D2 n k Hn). rewrite T3. exact E.
Qed.

Theorem down_walks md md' md'' op eh s e bs cie column w :
  eh_typed eh -> dwarf2sframe md op eh = Ok s -> build md' e s = Ok bs -> wf_mode md'' -> rust_slice md'' bs ->
  programs_followed eh cie ->
  (forall f, last_at eh f -> downward_program (op_arch op) (cie f) f /\
     forall x st, in_range (df_start f) (df_len f) x -> cfi_at (cie f) f x = Some st -> plain_row (op_arch op) (as_row st) (column f)) ->
  (exists sf, load md'' e bs = Ok sf /\ same_walks w (op_arch op) (cfi_says eh cie column) (section_says md'' e sf)) /\
  same_walks w (op_arch op) (cfi_says eh cie column) (std_tells e bs).
Proof.
  intros HT H B Hm Hs HP D. apply (program_walks md md' md'' op eh s e bs cie column w HT H B Hm Hs HP).
  intros f Hf. destruct (D f Hf) as [D1 D2]. split; [apply downward_unconfused; exact D1|exact D2].
Qed.
