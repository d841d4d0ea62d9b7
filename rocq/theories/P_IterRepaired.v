(** Claims about the reader that /repo does not meet, with the reader repaired in as few
    places as the claim needs. *)
From Verif Require Import IterRepairedWitness.
From Verif Require Import ReadSpec WriteSpec ConvSpec.

(** * C08 Every way of walking the functions gives the same functions and rows *)

(** With the rows taken from the descriptor's own offset by [next_back] and [nth], whatever
    is called in whatever order gives the entries of the section with their own rows. *)
Theorem C08_repaired_partial : forall rp md e bs sf ops, fix_rows rp = true ->
  wf_mode md -> rust_slice md bs -> load md e bs = Ok sf ->
  let run := fdi_run_with rp (fdes sf) ops in
  let spec := window_run (0, spec_num_fdes e bs) ops in
  map (option_map (fun en => (view_fde (en_fde en), en_fres en))) (fst run)
    = map (option_map (fun i => (spec_entry e bs i, spec_rows_of e bs (spec_entry e bs i)))) (fst spec) /\
  fdi_size_hint (snd run) = (snd (snd spec) - fst (snd spec), Some (snd (snd spec) - fst (snd spec))).
Proof. exact every_path. Qed.
Print Assumptions C08_repaired_partial.

(** Without repairs it is the iterator as it is. *)
Theorem C08_unrepaired_case : forall ops it, fdi_run_with no_repairs it ops = fdi_run it ops.
Proof. exact run_unrepaired. Qed.
Print Assumptions C08_unrepaired_case.

Theorem C08_repaired_case : forall e,
  let run rp := map (option_map (rows_seen rel64 e)) (fst (fdi_run_with rp (fdes (demo_sf e)) [OpNth 1])) in
  let runs rp := map (option_map (rows_seen rel64 e)) (fst (fdi_run_with rp (fdes (demo_sf e)) [OpNextBack; OpNext; OpNext])) in
  load rel64 e (demo e) = Ok (demo_sf e) /\ rust_slice rel64 (demo e) /\
  run rows_only = [Some (rows_seen rel64 e (nth_entry (demo_sf e) 1))] /\ run no_repairs <> run rows_only /\
  runs rows_only = [Some (rows_seen rel64 e (nth_entry (demo_sf e) 1)); Some (rows_seen rel64 e (nth_entry (demo_sf e) 0)); None] /\
  runs no_repairs <> runs rows_only.
Proof. exact path_case. Qed.
Print Assumptions C08_repaired_case.

(** * C12 Reading the rows of a function does not panic *)

(** With the assertion of read.rs:600 left out, reading the rows of any entry ends with
    rows and at most one error, and not more of them than the entry announces. *)
Theorem C12_repaired_partial : forall fx md e en, fix_tail fx = true -> fde_ok (en_fde en) ->
  exists good bad, all_fres_with fx md e en = Ok (map inl good ++ map inr bad) /\ (length bad <= 1)%nat /\
    zlen good + zlen bad <= fde_num_fres (en_fde en).
Proof. exact rows_total. Qed.
Print Assumptions C12_repaired_partial.

Theorem C12_repaired_step_partial : forall fx md e it, fix_tail fx = true -> fri_next_with fx md e it <> Panic.
Proof. exact next_no_panic. Qed.
Print Assumptions C12_repaired_step_partial.

(** What /repo reads without panicking is read alike. *)
Theorem C12_repaired_same_partial : forall md e en l, all_fres md e en = Ok l -> all_fres_with tail_only md e en = Ok l.
Proof. exact rows_same. Qed.
Print Assumptions C12_repaired_same_partial.

Theorem C12_repaired_case : forall e,
  load rel64 e (shrunk e) = Ok (shrunk_sf e) /\ In (nth_entry (shrunk_sf e) 0) (all_fdes (shrunk_sf e)) /\
  fde_ok (en_fde (nth_entry (shrunk_sf e) 0)) /\
  all_fres rel64 e (nth_entry (shrunk_sf e) 0) = Panic /\
  exists good, all_fres_with tail_only rel64 e (nth_entry (shrunk_sf e) 0) = Ok (map inl good) /\ length good = 1%nat.
Proof. exact rows_case. Qed.
Print Assumptions C12_repaired_case.

(** * C17 The function of an address is found *)

Theorem C17_repaired_partial : forall md e bs sf, wf_mode md -> rust_slice md bs -> load md e bs = Ok sf ->
  forall fx a, fix_order (fix_look fx) = true -> fix_rows (fix_look fx) = true -> fix_sub (fix_look fx) = true ->
  in_i32 a -> laid_out e bs ->
  match fde_for_address_whole fx md sf a with
  | Ok (Some en) => exists i, 0 <= i < spec_num_fdes e bs /\ view_fde (en_fde en) = spec_entry e bs i /\
      in_range (sd_start (spec_entry e bs i)) (sd_size (spec_entry e bs i)) a /\
      en_fres en = spec_rows_of e bs (spec_entry e bs i)
  | Ok None => forall i, 0 <= i < spec_num_fdes e bs ->
      ~ in_range (sd_start (spec_entry e bs i)) (sd_size (spec_entry e bs i)) a
  | _ => False
  end.
Proof. exact function_found. Qed.
Print Assumptions C17_repaired_partial.

Theorem C17_repaired_case : forall e, load rel64 e (demo e) = Ok (demo_sf e) /\ rust_slice rel64 (demo e) /\ laid_out e (demo e) /\
  fde_for_address rel64 (demo_sf e) 0x104 = Ok None /\
  fde_for_address_whole (RFixes (Repairs true true false true) false false) rel64 (demo_sf e) 0x104 = Ok (Some (nth_entry (demo_sf e) 0)) /\
  fde_for_address_whole (RFixes (Repairs true true false true) false false) rel64 (demo_sf e) 0x204 = Ok (Some (nth_entry (demo_sf e) 1)) /\
  fde_for_address_whole (RFixes (Repairs true true false true) false false) rel64 (demo_sf e) 0x180 = Ok None.
Proof. exact function_case. Qed.
Print Assumptions C17_repaired_case.

(** * C18 The function found has its own rows and contains the address *)

(** One repair is enough, in any section, sorted or not. *)
Theorem C18_repaired_partial : forall md e bs sf, wf_mode md -> rust_slice md bs -> load md e bs = Ok sf ->
  forall fx a en, fix_rows (fix_look fx) = true -> in_i32 a -> fde_for_address_whole fx md sf a = Ok (Some en) ->
  exists i, 0 <= i < spec_num_fdes e bs /\ view_fde (en_fde en) = spec_entry e bs i /\
    in_range (sd_start (spec_entry e bs i)) (sd_size (spec_entry e bs i)) a /\
    en_fres en = spec_rows_of e bs (spec_entry e bs i).
Proof. exact own_rows. Qed.
Print Assumptions C18_repaired_partial.

Theorem C18_repaired_case : forall e, load rel64 e (demo e) = Ok (demo_sf e) /\
  fde_for_address_whole (RFixes rows_only false false) rel64 (demo_sf e) 0x204 = Ok (Some (nth_entry (demo_sf e) 1)) /\
  fde_for_address rel64 (demo_sf e) 0x204 <> Ok (Some (nth_entry (demo_sf e) 1)).
Proof. exact own_case. Qed.
Print Assumptions C18_repaired_case.

(** * C19 Outside a function no row is found *)

Theorem C19_repaired_partial : forall fx md e en a, fix_sub (fix_look fx) = true -> fde_ok (en_fde en) -> in_i32 a ->
  ~ in_range (en_start_address en) (en_size en) a -> get_fre_within true fx md e en a = Ok None.
Proof. exact none_outside. Qed.
Print Assumptions C19_repaired_partial.

(** Without the repair of the end it is the look-up of [ReadRepaired.v]. *)
Theorem C19_unrepaired_case : forall fx md e en a, get_fre_within false fx md e en a = get_fre_whole fx md e en a.
Proof. exact within_unrepaired. Qed.
Print Assumptions C19_unrepaired_case.

Theorem C19_repaired_case : forall e, fde_ok (en_fde (nth_entry (demo_sf e) 0)) /\ in_i32 0x110 /\
  ~ in_range (en_start_address (nth_entry (demo_sf e) 0)) (en_size (nth_entry (demo_sf e) 0)) 0x110 /\
  get_fre_within true end_only rel64 e (nth_entry (demo_sf e) 0) 0x110 = Ok None /\
  (exists fr, get_fre_within false end_only rel64 e (nth_entry (demo_sf e) 0) 0x110 = Ok (Some fr)) /\
  (exists fr, get_fre_within true end_only rel64 e (nth_entry (demo_sf e) 0) 0x10f = Ok (Some fr)).
Proof. exact outside_case. Qed.
Print Assumptions C19_repaired_case.

(** * C20 The row found is the one in effect *)

Theorem C20_repaired_partial : forall fin fx md e en a rows off, fix_pick (fix_look fx) = true -> fix_sub (fix_look fx) = true ->
  fde_ok (en_fde en) -> in_i32 a -> in_range (en_start_address en) (en_size en) a ->
  all_fres_with fx md e en = Ok (map inl rows) -> ascending rows ->
  lookup_offset_with fx en (a - en_start_address en) = Some off ->
  match get_fre_within fin fx md e en a with
  | Ok (Some fr) => row_in_effect rows off fr
  | Ok None => forall fr, In fr rows -> off < fre_start_address_offset fr
  | _ => False
  end.
Proof. exact row_found_in_effect. Qed.
Print Assumptions C20_repaired_partial.

Theorem C20_repaired_case : forall e, exists r1 r2,
  in_range (en_start_address (nth_entry (demo_sf e) 0)) (en_size (nth_entry (demo_sf e) 0)) 0x108 /\
  all_fres_with pick_only rel64 e (nth_entry (demo_sf e) 0) = Ok (map inl [r1; r2]) /\ ascending [r1; r2] /\
  lookup_offset_with pick_only (nth_entry (demo_sf e) 0) (0x108 - en_start_address (nth_entry (demo_sf e) 0)) = Some 8 /\
  fre_start_address_offset r1 = 0 /\ fre_start_address_offset r2 = 4 /\
  get_fre_for_address rel64 e (nth_entry (demo_sf e) 0) 0x108 = Ok (Some r1) /\
  get_fre_within false pick_only rel64 e (nth_entry (demo_sf e) 0) 0x108 = Ok (Some r2).
Proof. exact effect_case. Qed.
Print Assumptions C20_repaired_case.

(** * C102 Sections with the same text give the same answers *)

Theorem C102_repaired_partial : forall alt alt' dt md e e' bs bs' sf sf' text,
  plain_texts dt -> wf_mode md -> rust_slice md bs -> rust_slice md bs' ->
  load md e bs = Ok sf -> load md e' bs' = Ok sf' ->
  section_text alt dt md e sf = Ok text -> section_text alt' dt md e' sf' = Ok text ->
  forall a, lookup_with rows_only md e sf a = lookup_with rows_only md e' sf' a.
Proof. exact same_text_answers. Qed.
Print Assumptions C102_repaired_partial.

Theorem C102_repaired_case :
  load rel64 LE (hidden x08) = Ok (hidden_sf x08) /\ load rel64 LE (hidden x09) = Ok (hidden_sf x09) /\
  rust_slice rel64 (hidden x08) /\ rust_slice rel64 (hidden x09) /\ plain_texts some_texts /\
  (exists text, section_text false some_texts rel64 LE (hidden_sf x08) = Ok text /\ section_text false some_texts rel64 LE (hidden_sf x09) = Ok text) /\
  lookup rel64 LE (hidden_sf x08) 0x1000 <> lookup rel64 LE (hidden_sf x09) 0x1000 /\
  exists u, lookup_with rows_only rel64 LE (hidden_sf x08) 0x1000 = Ok (Some u) /\
    lookup_with rows_only rel64 LE (hidden_sf x09) 0x1000 = Ok (Some u) /\ uw_cfa u = Some 16.
Proof. exact text_case. Qed.
Print Assumptions C102_repaired_case.

(** * C115 Damage to the rows of one function stays there *)

Theorem C115_repaired_partial : forall md md' e s bs bs' i b, wf_mode md' -> sfb_reach md s -> build md e s = Ok bs -> rust_slice md' bs ->
  damaged_rows (fdes_of s) i bs bs' -> nth_error (fdes_of s) i = Some b ->
  exists sf sf', load md' e bs = Ok sf /\ load md' e bs' = Ok sf' /\
    forall a, in_i32 a -> ~ in_range (fb_start b) (fb_size b) a ->
      lookup_with rows_only md' e sf a = lookup_with rows_only md' e sf' a.
Proof. exact damage_answers. Qed.
Print Assumptions C115_repaired_partial.

Theorem C115_repaired_case :
  sfb_reach rel64 demo_sfb /\ build rel64 LE demo_sfb = Ok (demo LE) /\ rust_slice rel64 (demo LE) /\
  damaged_rows (fdes_of demo_sfb) 0 (demo LE) (hurt0 LE) /\ nth_error (fdes_of demo_sfb) 0 <> None /\
  load rel64 LE (demo LE) = Ok (demo_sf LE) /\ load rel64 LE (hurt0 LE) = Ok (sf_of LE (hurt0 LE)) /\
  lookup rel64 LE (demo_sf LE) 0x204 <> lookup rel64 LE (sf_of LE (hurt0 LE)) 0x204 /\
  exists u, lookup_with rows_only rel64 LE (demo_sf LE) 0x204 = Ok (Some u) /\
    lookup_with rows_only rel64 LE (sf_of LE (hurt0 LE)) 0x204 = Ok (Some u).
Proof. exact damage_case. Qed.
Print Assumptions C115_repaired_case.

(** * C135 Looking up an address in a converted section does not fail *)

(** In every section the writer builds the repaired reader gives at every address the row
    that is in effect there, as it was written, and the key of the function. *)
Theorem C135_repaired_built_partial : forall md md' e s bs sf, sfb_reach md s -> build md e s = Ok bs ->
  wf_mode md' -> rust_slice md' bs -> load md' e bs = Ok sf -> forall a, in_i32 a ->
  match lookup_key lib_rfixes md' e sf a with
  | Ok (Some (k, u)) => exists b r, in_effect_at s a b r /\ k = fb_pauth b /\ u = std_unwind bs (written r)
  | Ok None => forall b r, ~ in_effect_at s a b r
  | Err (inr InvalidFdeRepBlockSize) => exists b, In b (fdes_of s) /\ in_range (fb_start b) (fb_size b) a /\ fb_rep_size b = Some 0
  | _ => False
  end.
Proof. exact built_answers. Qed.
Print Assumptions C135_repaired_built_partial.

Theorem C135_repaired_partial : forall md md' md'' op eh s e bs, eh_typed eh -> dwarf2sframe md op eh = Ok s -> build md' e s = Ok bs ->
  wf_mode md'' -> rust_slice md'' bs -> exists sf, load md'' e bs = Ok sf /\
    forall a, in_i32 a -> exists o, lookup_key lib_rfixes md'' e sf a = Ok o.
Proof. exact converted_answers. Qed.
Print Assumptions C135_repaired_partial.

Theorem C135_repaired_case : forall e, eh_typed (short_long 8) /\ dwarf2sframe rel64 amd (short_long 8) = Ok (sl_sfb 8) /\
  build rel64 e (sl_sfb 8) = Ok (sl_bytes e 8) /\ rust_slice rel64 (sl_bytes e 8) /\ load rel64 e (sl_bytes e 8) = Ok (sl_sf e 8) /\
  lookup rel64 e (sl_sf e 8) 0x2010 = Err (inr (InvalidFreOffsetCount 4)) /\
  exists b r u, in_effect_at (sl_sfb 8) 0x2010 b r /\ fb_rep_size b = None /\
    lookup_key lib_rfixes rel64 e (sl_sf e 8) 0x2010 = Ok (Some (fb_pauth b, u)) /\ uw_cfa u = Some 8.
Proof. exact built_case. Qed.
Print Assumptions C135_repaired_case.

(** * C137 The version of the standard library makes no difference *)

Theorem C137_repaired_partial : forall i fx md e bs sf a, wf_mode md -> rust_slice md bs -> load md e bs = Ok sf -> in_i32 a -> laid_out e bs ->
  fix_order (fix_look fx) = true -> fix_rows (fix_look fx) = true -> fix_sub (fix_look fx) = true ->
  fde_for_address_whole fx (with_library i md) sf a = fde_for_address_whole fx md sf a /\
  lookup_key fx (with_library i md) e sf a = lookup_key fx md e sf a.
Proof. exact any_library. Qed.
Print Assumptions C137_repaired_partial.

Theorem C137_repaired_case : forall e,
  build rel64 e three_sfb = Ok (section e three_sfb) /\ load rel64 e (section e three_sfb) = Ok (three_sf e) /\
  rust_slice rel64 (section e three_sfb) /\ laid_out e (section e three_sfb) /\
  lookup (with_library BsLeftRight rel64) e (three_sf e) 0x100 <> lookup rel64 e (three_sf e) 0x100 /\
  exists k u, lookup_key (RFixes (Repairs true true false true) false false) (with_library BsLeftRight rel64) e (three_sf e) 0x100 = Ok (Some (k, u)) /\
    lookup_key (RFixes (Repairs true true false true) false false) rel64 e (three_sf e) 0x100 = Ok (Some (k, u)).
Proof. exact library_case. Qed.
Print Assumptions C137_repaired_case.

(** * C140 The byte order of a section makes no difference to look-ups *)

Theorem C140_repaired_partial : forall md md' e e' s bs bs' sf sf', sfb_reach md s -> build md e s = Ok bs -> build md e' s = Ok bs' ->
  wf_mode md' -> rust_slice md' bs -> load md' e bs = Ok sf -> load md' e' bs' = Ok sf' ->
  forall a, lookup_with rows_only md' e sf a = lookup_with rows_only md' e' sf' a.
Proof. exact order_answers. Qed.
Print Assumptions C140_repaired_partial.

Theorem C140_repaired_case :
  build rel64 LE (sl_sfb 32) = Ok (sl_bytes LE 32) /\ build rel64 BE (sl_sfb 32) = Ok (sl_bytes BE 32) /\ sfb_reach rel64 (sl_sfb 32) /\
  rust_slice rel64 (sl_bytes LE 32) /\ load rel64 LE (sl_bytes LE 32) = Ok (sl_sf LE 32) /\ load rel64 BE (sl_bytes BE 32) = Ok (sl_sf BE 32) /\
  lookup rel64 LE (sl_sf LE 32) 0x2010 <> lookup rel64 BE (sl_sf BE 32) 0x2010 /\
  exists u, lookup_with rows_only rel64 LE (sl_sf LE 32) 0x2010 = Ok (Some u) /\ lookup_with rows_only rel64 BE (sl_sf BE 32) 0x2010 = Ok (Some u) /\
    uw_cfa u = Some 8.
Proof. exact order_case. Qed.
Print Assumptions C140_repaired_case.
