(** Property theorems of the reader: C01-C05, C07-C25. *)
From Verif Require Import ReadWitness HeaderRows.

(** * C01 Loading arbitrary bytes never panics *)

Theorem C01_load_never_panics : forall md e bs,
  wf_mode md -> rust_slice md bs ->
  (usize_bits md = 64 \/ overflow_checks md = false) ->
  load md e bs <> Panic.
Proof. exact load_no_panic. Qed.
Print Assumptions C01_load_never_panics.

(** The remaining profile (32-bit with overflow checks): exactly when it panics. *)
Theorem C01_load_panics_only_on_32bit_overflow : forall md e bs,
  wf_mode md -> rust_slice md bs ->
  (load md e bs = Panic <->
   usize_bits md = 32 /\ overflow_checks md = true /\
   good_magic e bs /\ good_version bs /\
   spec_header_size <= zlen bs /\ spec_base bs <= zlen bs /\
   spec_base bs + spec_fdeoff e bs + spec_num_fdes e bs * spec_entry_size bs <= zlen bs /\
   2 ^ 32 <= spec_freoff e bs + spec_fre_len e bs).
Proof. exact load_panic_iff. Qed.
Print Assumptions C01_load_panics_only_on_32bit_overflow.

Example C01_case : rust_slice dev64 (demo LE) /\ wf_mode dev64 /\ wf_mode rel32 /\ usize_bits dev64 = 64.
Proof. split; [apply demo_slice, wf_dev64|]. split; [apply wf_dev64|]. split; [apply wf_rel32|reflexivity]. Qed.

(** * C02 Loading accepts exactly the sections whose declared layout fits *)

Theorem C02_load_accepts_exactly : forall md e bs,
  wf_mode md -> rust_slice md bs ->
  ((exists sf, load md e bs = Ok sf) <->
   good_magic e bs /\ good_version bs /\ layout_fits e bs).
Proof. exact load_ok_iff. Qed.
Print Assumptions C02_load_accepts_exactly.

Theorem C02_load_error_meaning : forall md e bs er,
  wf_mode md -> rust_slice md bs ->
  load md e bs = Err er ->
  match er with
  | IncorrectEndian => 4 <= zlen bs /\ ~ good_magic e bs
  | UnsupportedVersion v =>
      4 <= zlen bs /\ good_magic e bs /\ v = spec_version bs /\ ~ good_version bs
  | UnexpectedEof =>
      zlen bs < 4 \/ (4 <= zlen bs /\ good_magic e bs /\ good_version bs /\ ~ layout_fits e bs)
  | _ => False
  end.
Proof. exact load_errors. Qed.
Print Assumptions C02_load_error_meaning.

Example C02_case_ok : load rel64 BE (demo BE) = Ok (demo_sf BE).
Proof. apply demo_loads. Qed.
Example C02_case_errors :
  load rel64 LE [] = Err UnexpectedEof /\
  load rel64 LE [xe2; xde; x03; x00] = Err (UnsupportedVersion 3) /\
  load rel64 LE [xde; xe2; x02; x00] = Err IncorrectEndian /\
  load rel64 LE (firstn 60 (demo LE)) = Err UnexpectedEof.
Proof. vm_compute. repeat split. Qed.

(** * C03 Header accessors report the bytes at the specified positions *)

Theorem C03_header_accessors : forall md e bs sf,
  wf_mode md -> rust_slice md bs -> load md e bs = Ok sf ->
  version sf = spec_version bs /\ flags sf = spec_flags bs /\ abi sf = spec_abi bs /\
  fixed_fp_offset sf = nonzero (spec_fixed_fp bs) /\
  fixed_ra_offset sf = nonzero (spec_fixed_ra bs) /\
  num_fdes sf = spec_num_fdes e bs /\ num_fres sf = spec_num_fres e bs /\
  raw_aux sf = spec_aux bs /\ sf_fres sf = spec_fre_bytes e bs.
Proof. exact load_accessors. Qed.
Print Assumptions C03_header_accessors.

Example C03_case : num_fdes (demo_sf BE) = 2 /\ num_fres (demo_sf BE) = 3 /\ version (demo_sf BE) = 2.
Proof. vm_compute. repeat split. Qed.

(** * C04 A section is never read in the wrong byte order *)

Theorem C04_wrong_byte_order : forall md e bs sf,
  wf_mode md -> rust_slice md bs -> load md e bs = Ok sf ->
  load md (swap e) bs = Err IncorrectEndian.
Proof. exact load_wrong_endian. Qed.
Print Assumptions C04_wrong_byte_order.

Example C04_case : load rel64 BE (demo LE) = Err IncorrectEndian.
Proof. vm_compute. reflexivity. Qed.

(** * C05 Bytes after the section do not matter *)

Theorem C05_suffix_irrelevant : forall md e bs x sf,
  wf_mode md -> rust_slice md (bs ++ x) -> load md e bs = Ok sf ->
  load md e (bs ++ x) = Ok sf.
Proof. exact load_suffix. Qed.
Print Assumptions C05_suffix_irrelevant.

Example C05_case : load rel64 LE (demo LE ++ [x01; x02; x03]) = Ok (demo_sf LE).
Proof. vm_compute. reflexivity. Qed.

(** * C07 The FDE iterator visits every descriptor exactly once in table order *)

Theorem C07_iterator : forall md e bs sf ops,
  wf_mode md -> rust_slice md bs -> load md e bs = Ok sf ->
  let run := fdi_run (fdes sf) ops in
  let spec := window_run (0, spec_num_fdes e bs) ops in
  map (option_map (fun en => view_fde (en_fde en))) (fst run)
    = map (option_map (spec_entry e bs)) (fst spec) /\
  fdi_size_hint (snd run) = (snd (snd spec) - fst (snd spec), Some (snd (snd spec) - fst (snd spec))).
Proof. exact iterator_spec. Qed.
Print Assumptions C07_iterator.

(** A [for] loop delivers all of them, each with its own rows. *)
Theorem C07_for_loop : forall md e bs sf,
  wf_mode md -> rust_slice md bs -> load md e bs = Ok sf ->
  zlen (all_fdes sf) = spec_num_fdes e bs /\
  forall i en, nth_error (all_fdes sf) i = Some en ->
    fde_ok (en_fde en) /\
    view_fde (en_fde en) = spec_entry e bs (Z.of_nat i) /\
    en_fres en = spec_rows_of e bs (spec_entry e bs (Z.of_nat i)).
Proof. exact all_fdes_spec. Qed.
Print Assumptions C07_for_loop.

(** The accessors of every function delivered show its descriptor. *)
Theorem C07_accessors : forall md e bs sf ops k en,
  wf_mode md -> rust_slice md bs -> load md e bs = Ok sf ->
  nth_error (fst (fdi_run (fdes sf) ops)) k = Some (Some en) ->
  exists i, nth_error (fst (window_run (0, spec_num_fdes e bs) ops)) k = Some (Some i) /\
    accessors_show (spec_version bs) (spec_entry e bs i) en.
Proof. exact accessors_of_delivered. Qed.
Print Assumptions C07_accessors.

Example C07_case :
  fst (window_run (0, spec_num_fdes LE (demo LE)) [OpNextBack; OpNth 0; OpNext]) = [Some 1; Some 0; None] /\
  sd_start (spec_entry LE (demo LE) 1) = 0x200.
Proof. vm_compute. split; reflexivity. Qed.

(** * C08 All ways of reaching an FDE give the same rows: false *)

Theorem C08_nth_refuted :
  exists s md e bs sf en1 en2,
    build md e s = Ok bs /\ load md e bs = Ok sf /\
    last (fst (fdi_run (fdes sf) [OpNext; OpNext])) None = Some en1 /\
    fst (fdi_nth 1 (fdes sf)) = Some en2 /\
    en_fde en1 = en_fde en2 /\
    rows_seen md e en1 <> rows_seen md e en2.
Proof. exact nth_rows_refuted. Qed.
Print Assumptions C08_nth_refuted.

Theorem C08_next_back_refuted :
  exists s md e bs sf en1 en2,
    build md e s = Ok bs /\ load md e bs = Ok sf /\
    last (fst (fdi_run (fdes sf) [OpNext; OpNext])) None = Some en1 /\
    fst (fdi_next_back (fdes sf)) = Some en2 /\
    en_fde en1 = en_fde en2 /\
    rows_seen md e en1 <> rows_seen md e en2.
Proof. exact next_back_rows_refuted. Qed.
Print Assumptions C08_next_back_refuted.

(** What each access path attaches: [next] the descriptor's own rows, [nth] and
    [next_back] the whole FRE sub-section (right only for offset 0). *)
Theorem C08_access_paths_partial : forall md e bs sf i,
  wf_mode md -> rust_slice md bs -> load md e bs = Ok sf -> 0 <= i < spec_num_fdes e bs ->
  (exists en, last (fst (fdi_run (fdes sf) (repeat OpNext (S (Z.to_nat i))))) None = Some en /\
     view_fde (en_fde en) = spec_entry e bs i /\
     en_fres en = spec_rows_of e bs (spec_entry e bs i)) /\
  (exists en, fst (fdi_nth (Z.to_nat i) (fdes sf)) = Some en /\
     view_fde (en_fde en) = spec_entry e bs i /\ en_fres en = spec_fre_bytes e bs) /\
  (exists en, last (fst (fdi_run (fdes sf) (repeat OpNextBack (Z.to_nat (spec_num_fdes e bs - i))))) None = Some en /\
     view_fde (en_fde en) = spec_entry e bs i /\ en_fres en = spec_fre_bytes e bs).
Proof. exact access_rows. Qed.
Print Assumptions C08_access_paths_partial.

(** * C09 The row iterator is bounded and fused *)

Theorem C09_row_iterator_bounded_fused : forall md e en n os it',
  fde_ok (en_fde en) -> fri_calls n md e (fres en) = Ok (os, it') ->
  exists good bad k,
    os = map (fun fr => Some (inl fr)) good ++ map (fun er => Some (inr er)) bad ++ repeat None k /\
    (length bad <= 1)%nat /\ zlen good + zlen bad <= fde_num_fres (en_fde en).
Proof. exact row_iter_bounded. Qed.
Print Assumptions C09_row_iterator_bounded_fused.

Example C09_case : fde_ok (en_fde (nth_entry (demo_sf LE) 0)) /\
  exists r it', fri_calls 5 rel64 LE (fres (nth_entry (demo_sf LE) 0)) = Ok (r, it') /\ length r = 5%nat.
Proof. split; [vm_compute; repeat split; discriminate|]. eexists; eexists. vm_compute. split; reflexivity. Qed.

(** * C10 Row iterator size hints are sound *)

Theorem C10_size_hint_sound : forall md e it l lo hi,
  wf_mode md -> fde_ok (ri_fde it) -> 0 <= ri_index it ->
  fri_collect (fri_fuel it) md e it = Ok l ->
  fri_size_hint it = (lo, hi) ->
  lo <= zlen l /\ match hi with Some h => zlen l <= h | None => True end.
Proof. exact fri_size_hint_sound. Qed.
Print Assumptions C10_size_hint_sound.

Example C10_case : fri_size_hint (fres (nth_entry (demo_sf LE) 0)) = (1, Some 2) /\
  exists l, fri_collect (fri_fuel (fres (nth_entry (demo_sf LE) 0))) rel64 LE (fres (nth_entry (demo_sf LE) 0)) = Ok l /\ zlen l = 2.
Proof. split; [vm_compute; reflexivity|]. eexists. vm_compute. split; reflexivity. Qed.

(** * C11 Hostile row counts cannot cause unbounded work *)

Theorem C11_bounded_work : forall md e en,
  wf_mode md -> fde_ok (en_fde en) ->
  all_fres md e en <> Err OutOfFuel /\
  forall l, all_fres md e en = Ok l ->
    zlen l <= zlen (en_fres en) / 2 + 1 /\
    exists good bad aw rest,
      l = map inl good ++ map inr bad /\ (length bad <= 1)%nat /\
      (good <> [] -> width_of (fre_type_num (fde_info (en_fde en))) = Some aw) /\
      spec_rows_at e aw (en_fres en) (map view_fre good) rest.
Proof. exact row_iter_work. Qed.
Print Assumptions C11_bounded_work.

Theorem C11_rows_inside_section : forall md e bs sf en,
  wf_mode md -> rust_slice md bs -> load md e bs = Ok sf -> In en (all_fdes sf) ->
  exists before, spec_fre_bytes e bs = before ++ en_fres en.
Proof. exact row_bytes_inside. Qed.
Print Assumptions C11_rows_inside_section.

(** A descriptor claiming 2^32-1 rows over 15 bytes: three rows, one error. *)
Example C11_case :
  exists a b c er,
  all_fres rel64 LE (Entry (FdeV2 (RawFde2 0 100 0 4294967295 0 0 0)) (sf_fres (demo_sf LE)))
  = Ok [inl a; inl b; inl c; inr er].
Proof. eexists; eexists; eexists; eexists. vm_compute. reflexivity. Qed.

(** * C12 Reading malformed rows returns an error, not a panic: false *)

Theorem C12_row_panic_refuted :
  exists md e bs sf en,
    wf_mode md /\ load md e bs = Ok sf /\ In en (all_fdes sf) /\ all_fres md e en = Panic.
Proof. exact row_panic_refuted. Qed.
Print Assumptions C12_row_panic_refuted.

(** Exactly when it panics: a well-formed row that starts at or past the
    function's size. Everything else is reported as [Err]. *)
Theorem C12_panic_iff_partial : forall md e it,
  wf_mode md -> fde_ok (ri_fde it) ->
  (fri_next md e it = Panic <->
   ri_index it < fde_num_fres (ri_fde it) /\
   exists aw r rest, width_of (fre_type_num (fde_info (ri_fde it))) = Some aw /\
     spec_row_at e aw (ri_fres it) r rest /\ fde_size (ri_fde it) <= sr_start r).
Proof. exact fri_next_panic_iff. Qed.
Print Assumptions C12_panic_iff_partial.

(** * C13 Row decoding matches the format *)

Theorem C13_decode_sound : forall md e f bs fr rest,
  wf_mode md -> fde_ok f -> fre_load md e f bs = Ok (fr, rest) ->
  exists aw, width_of (fre_type_num (fde_info f)) = Some aw /\
    spec_row_at e aw bs (view_fre fr) rest /\
    fre_start_address_offset fr < fde_size f /\ fr_fde fr = f.
Proof. exact row_decode_sound. Qed.
Print Assumptions C13_decode_sound.

Theorem C13_decode_complete : forall md e f bs aw r rest,
  wf_mode md -> fde_ok f -> width_of (fre_type_num (fde_info f)) = Some aw ->
  spec_row_at e aw bs r rest ->
  (sr_start r < fde_size f ->
     exists fr, fre_load md e f bs = Ok (fr, rest) /\ view_fre fr = r /\ fr_fde fr = f) /\
  (fde_size f <= sr_start r -> fre_load md e f bs = Panic).
Proof. exact row_decode_complete. Qed.
Print Assumptions C13_decode_complete.

Theorem C13_decode_errors : forall md e f bs,
  wf_mode md -> fde_ok f ->
  match width_of (fre_type_num (fde_info f)) with
  | None =>
      fre_load md e f bs = Err (UnsupportedFreType (fretype (fde_info f))) /\
      fre_type_u8 (fretype (fde_info f)) = fre_type_num (fde_info f)
  | Some aw =>
      (zlen bs < aw + 1 -> fre_load md e f bs = Err UnexpectedEof) /\
      (aw + 1 <= zlen bs ->
       let info := u_at e aw 1 bs in
       (3 < bits 1 4 info -> fre_load md e f bs = Err (InvalidFreOffsetCount (bits 1 4 info))) /\
       (bits 1 4 info <= 3 ->
        match width_of (bits 5 2 info) with
        | None => fre_load md e f bs = Err (UnsupportedFreOffset OffReserved3)
        | Some ow =>
            zlen bs < aw + 1 + bits 1 4 info * ow -> fre_load md e f bs = Err UnexpectedEof
        end))
  end.
Proof. exact row_decode_errors. Qed.
Print Assumptions C13_decode_errors.

(** Start 4, SP base, mangled, two big-endian 2-byte offsets 16 and -8. *)
Example C13_case :
  spec_row_at BE 1 [x04; xa5; x00; x10; xff; xf8; x77] (SpecRow 4 true true [16; -8]) [x77] /\
  exists fr, fre_load dev64 BE (FdeV2 (RawFde2 0 16 0 1 0 0 0)) [x04; xa5; x00; x10; xff; xf8; x77]
    = Ok (fr, [x77]) /\ view_fre fr = SpecRow 4 true true [16; -8].
Proof.
  split.
  - exists [x04], xa5, 2, [[x00; x10]; [xff; xf8]].
    repeat apply conj; try (vm_compute; first [reflexivity|discriminate]).
    repeat constructor.
  - eexists. vm_compute. split; reflexivity.
Qed.

(** * C14 contains is half-open interval membership *)

Theorem C14_contains : forall E md en a,
  fde_ok (en_fde en) -> in_i32 a ->
  match @contains E md en a with
  | Ok b => (b = true <-> in_range (en_start_address en) (en_size en) a) /\
            (overflow_checks md = true -> a - en_start_address en <= i32_max)
  | Err _ => False
  | Panic => overflow_checks md = true /\ i32_max < a - en_start_address en
  end.
Proof. exact @contains_spec. Qed.
Print Assumptions C14_contains.

Example C14_case :
  let en := Entry (FdeV2 (RawFde2 (-2147483648) 4294967295 0 0 0 0 0)) [] in
  fde_ok (en_fde en) /\ @contains never rel64 en 2147483646 = Ok true /\
  @contains never rel64 en 2147483647 = Ok false /\ @contains never dev64 en 0 = Panic.
Proof. vm_compute. repeat split; discriminate. Qed.

(** * C15 Address search in an unsorted section finds the first covering FDE *)

Theorem C15_unsorted_search : forall md e bs sf a,
  wf_mode md -> rust_slice md bs -> load md e bs = Ok sf -> in_i32 a ->
  is_sorted_flag bs = false ->
  match fde_for_address md sf a with
  | Ok (Some en) =>
      exists i, 0 <= i < spec_num_fdes e bs /\ view_fde (en_fde en) = spec_entry e bs i /\
        in_range (sd_start (spec_entry e bs i)) (sd_size (spec_entry e bs i)) a /\
        (forall j, 0 <= j < i -> ~ in_range (sd_start (spec_entry e bs j)) (sd_size (spec_entry e bs j)) a) /\
        en_fres en = spec_rows_of e bs (spec_entry e bs i)
  | Ok None =>
      forall i, 0 <= i < spec_num_fdes e bs ->
        ~ in_range (sd_start (spec_entry e bs i)) (sd_size (spec_entry e bs i)) a
  | Err _ => False
  | Panic =>
      overflow_checks md = true /\
      exists i, 0 <= i < spec_num_fdes e bs /\ i32_max < a - sd_start (spec_entry e bs i)
  end.
Proof. exact unsorted_search. Qed.
Print Assumptions C15_unsorted_search.

Example C15_case : load rel64 LE (unsorted LE) = Ok (unsorted_sf LE) /\
  is_sorted_flag (unsorted LE) = false /\
  exists en, fde_for_address rel64 (unsorted_sf LE) 0x204 = Ok (Some en) /\ en_start_address en = 0x200.
Proof. split; [vm_compute; reflexivity|]. split; [vm_compute; reflexivity|]. eexists. vm_compute. split; reflexivity. Qed.

(** * C16 Any FDE returned for an address contains it *)

Theorem C16_search_sound : forall md e bs sf a en,
  wf_mode md -> rust_slice md bs -> load md e bs = Ok sf -> in_i32 a ->
  fde_for_address md sf a = Ok (Some en) ->
  exists i, 0 <= i < spec_num_fdes e bs /\ view_fde (en_fde en) = spec_entry e bs i /\
    in_range (sd_start (spec_entry e bs i)) (sd_size (spec_entry e bs i)) a.
Proof. exact search_sound. Qed.
Print Assumptions C16_search_sound.

Example C16_case : exists en, fde_for_address rel64 (demo_sf LE) 0x204 = Ok (Some en).
Proof. eexists. vm_compute. reflexivity. Qed.

(** * C17 Address search in a sorted section is complete: false *)

Theorem C17_sorted_search_refuted : forall impl,
  exists s md e bs sf a k,
    bsearch md = impl /\ build md e s = Ok bs /\ load md e bs = Ok sf /\
    is_sorted_flag bs = true /\
    0 <= k < spec_num_fdes e bs /\
    in_range (sd_start (spec_entry e bs k)) (sd_size (spec_entry e bs k)) a /\
    fde_for_address md sf a = Ok None.
Proof. exact sorted_search_refuted. Qed.
Print Assumptions C17_sorted_search_refuted.

(** What is found in a sorted disjoint table: with the old algorithm only the
    middle entry, with the new one only the entry of a one-entry table and the
    second of a two-entry table. *)
Theorem C17_sorted_search_exact_partial : forall md e bs sf a k,
  wf_mode md -> rust_slice md bs -> load md e bs = Ok sf -> in_i32 a ->
  is_sorted_flag bs = true -> sorted_disjoint e bs ->
  0 <= k < spec_num_fdes e bs ->
  in_range (sd_start (spec_entry e bs k)) (sd_size (spec_entry e bs k)) a ->
  (overflow_checks md = false \/
   forall i, 0 <= i < spec_num_fdes e bs -> a - sd_start (spec_entry e bs i) <= i32_max) ->
  (reached (bsearch md) (spec_num_fdes e bs) k = true ->
     exists en, fde_for_address md sf a = Ok (Some en) /\ view_fde (en_fde en) = spec_entry e bs k) /\
  (reached (bsearch md) (spec_num_fdes e bs) k = false -> fde_for_address md sf a = Ok None).
Proof. exact sorted_search_exact. Qed.
Print Assumptions C17_sorted_search_exact_partial.

Example C17_case : is_sorted_flag (demo LE) = true /\
  sd_start (spec_entry LE (demo LE) 0) + sd_size (spec_entry LE (demo LE) 0) <= sd_start (spec_entry LE (demo LE) 1).
Proof. vm_compute. split; [reflexivity|discriminate]. Qed.

(** * C18 The FDE found for an address carries its own rows: false *)

Theorem C18_found_rows_refuted :
  exists s md e bs sf a en,
    build md e s = Ok bs /\ load md e bs = Ok sf /\
    fde_for_address md sf a = Ok (Some en) /\
    view_fde (en_fde en) = spec_entry e bs 1 /\
    rows_seen md e en <> rows_seen md e (nth_entry sf 1).
Proof. exact found_rows_refuted. Qed.
Print Assumptions C18_found_rows_refuted.

(** In a section flagged sorted, the entry returned always carries the whole FRE
    sub-section (its own rows only if it is stored at offset 0); for unsorted
    sections see [C15_unsorted_search]. *)
Theorem C18_sorted_search_rows_partial : forall md e bs sf a,
  wf_mode md -> rust_slice md bs -> load md e bs = Ok sf -> in_i32 a ->
  is_sorted_flag bs = true ->
  match fde_for_address md sf a with
  | Ok (Some en) =>
      exists i, 0 <= i < spec_num_fdes e bs /\ view_fde (en_fde en) = spec_entry e bs i /\
        in_range (sd_start (spec_entry e bs i)) (sd_size (spec_entry e bs i)) a /\
        en_fres en = spec_fre_bytes e bs
  | Ok None => True
  | Err _ => False
  | Panic =>
      overflow_checks md = true /\
      exists i, 0 <= i < spec_num_fdes e bs /\ i32_max < a - sd_start (spec_entry e bs i)
  end.
Proof. exact sorted_search. Qed.
Print Assumptions C18_sorted_search_rows_partial.

(** * C19 Row search outside the function returns None: false at the end *)

Theorem C19_row_search_outside_refuted :
  exists s md e bs sf a fr,
    build md e s = Ok bs /\ load md e bs = Ok sf /\
    ~ in_range (en_start_address (nth_entry sf 0)) (en_size (nth_entry sf 0)) a /\
    get_fre_for_address md e (nth_entry sf 0) a = Ok (Some fr).
Proof. exact row_search_outside_refuted. Qed.
Print Assumptions C19_row_search_outside_refuted.

(** True everywhere but at the first address after the function. *)
Theorem C19_row_search_outside_partial : forall md e en a,
  fde_ok (en_fde en) -> in_i32 a ->
  ~ in_range (en_start_address en) (en_size en) a ->
  a <> en_start_address en + en_size en ->
  (overflow_checks md = false \/ a - en_start_address en <= i32_max) ->
  get_fre_for_address md e en a = Ok None.
Proof. exact get_fre_outside. Qed.
Print Assumptions C19_row_search_outside_partial.

(** * C20 Row search returns the row in effect: false *)

Theorem C20_row_search_refuted :
  exists s md e bs sf a rows fr,
    build md e s = Ok bs /\ load md e bs = Ok sf /\
    in_range (en_start_address (nth_entry sf 0)) (en_size (nth_entry sf 0)) a /\
    all_fres md e (nth_entry sf 0) = Ok (map inl rows) /\ ascending rows /\
    get_fre_for_address md e (nth_entry sf 0) a = Ok (Some fr) /\
    ~ row_in_effect rows (a - en_start_address (nth_entry sf 0)) fr.
Proof. exact row_search_refuted. Qed.
Print Assumptions C20_row_search_refuted.

(** With ascending rows the answer is always the first row, which is the row in
    effect exactly when no later row starts at or before the offset. *)
Theorem C20_row_search_first_partial : forall md e en a first rest off,
  fde_ok (en_fde en) -> in_i32 a ->
  (overflow_checks md = false \/ a - en_start_address en <= i32_max) ->
  en_start_address en <= a <= en_start_address en + en_size en ->
  all_fres md e en = Ok (map inl (first :: rest)) ->
  ascending (first :: rest) ->
  lookup_offset en (a - en_start_address en) = Some off ->
  fre_start_address_offset first <= off ->
  get_fre_for_address md e en a = Ok (Some first) /\
  (row_in_effect (first :: rest) off first <->
   forall g, In g rest -> off < fre_start_address_offset g).
Proof. exact get_fre_first. Qed.
Print Assumptions C20_row_search_first_partial.

(** In general the answer is the first row that starts at or before the offset,
    or the first decoding error. *)
Theorem C20_row_search_char_partial : forall md e en a good bad off,
  fde_ok (en_fde en) -> in_i32 a ->
  (overflow_checks md = false \/ a - en_start_address en <= i32_max) ->
  en_start_address en <= a <= en_start_address en + en_size en ->
  all_fres md e en = Ok (map inl good ++ map inr bad) ->
  lookup_offset en (a - en_start_address en) = Some off ->
  get_fre_for_address md e en a =
  match find (fun fr => fre_start_address_offset fr <=? off) good with
  | Some fr => Ok (Some fr)
  | None => match bad with [] => Ok None | er :: _ => Err (inr er) end
  end.
Proof. exact get_fre_char. Qed.
Print Assumptions C20_row_search_char_partial.

(** No row behind the answer is looked at; in particular a damaged row there does
    no harm. *)
Theorem C20_search_stops_partial : forall md e en a off pre it',
  wf_mode md -> fde_ok (en_fde en) -> in_i32 a ->
  (overflow_checks md = false \/ a - en_start_address en <= i32_max) ->
  en_start_address en <= a <= en_start_address en + en_size en ->
  lookup_offset en (a - en_start_address en) = Some off ->
  fri_calls (length pre) md e (fres en) = Ok (map (fun x => Some (inl x)) pre, it') ->
  Forall (fun x => off < fre_start_address_offset x) pre ->
  match fri_next md e it' with
  | Ok (Some (inl fr), _) => fre_start_address_offset fr <= off -> get_fre_for_address md e en a = Ok (Some fr)
  | Ok (Some (inr er), _) => get_fre_for_address md e en a = Err (inr er)
  | Ok (None, _) => get_fre_for_address md e en a = Ok None
  | Panic => get_fre_for_address md e en a = Panic
  | Err _ => False
  end.
Proof. exact get_fre_stops. Qed.
Print Assumptions C20_search_stops_partial.

(** A block size of zero is an error. *)
Theorem C20_zero_block_partial : forall md e en a,
  fde_ok (en_fde en) -> in_i32 a ->
  (overflow_checks md = false \/ a - en_start_address en <= i32_max) ->
  en_start_address en <= a <= en_start_address en + en_size en ->
  en_fdetype en = PPcMask -> en_rep_block_size en = Some 0 ->
  get_fre_for_address md e en a = Err (inr InvalidFdeRepBlockSize).
Proof. exact get_fre_zero_block. Qed.
Print Assumptions C20_zero_block_partial.

Example C20_case :
  let en := Entry (FdeV2 (RawFde2 0x1000 32 0 3 8 0 0)) (sf_fres (demo_sf LE)) in
  fde_ok (en_fde en) /\ en_fdetype en = PPcMask /\ en_rep_block_size en = Some 0 /\
  get_fre_for_address dev64 LE en 0x1008 = Err (inr InvalidFdeRepBlockSize) /\
  (* the second row panics, the first one is found *)
  let sh := Entry (FdeV2 (RawFde2 0x1000 1 0 3 0 0 0)) (sf_fres (demo_sf LE)) in
  fde_ok (en_fde sh) /\ all_fres rel64 LE sh = Panic /\ lookup_offset sh 0 = Some 0 /\
  exists fr it', fri_calls 0 rel64 LE (fres sh) = Ok ([], fres sh) /\ fri_next rel64 LE (fres sh) = Ok (Some (inl fr), it') /\
    get_fre_for_address rel64 LE sh (en_start_address sh) = Ok (Some fr).
Proof. exact search_cases. Qed.

(** * C21 CFA, RA and FP accessors follow the fixed-offset rules *)

Theorem C21_cfa_offset : forall fr,
  fre_cfa_offset fr = match sr_offsets (view_fre fr) with c :: _ => Ok c | [] => Err MissingFreOffset end.
Proof. exact cfa_offset_spec. Qed.
Print Assumptions C21_cfa_offset.

Theorem C21_ra_offset : forall fr sf,
  fre_ra_offset fr sf =
  match fixed_ra_offset sf with
  | Some o => Ok o
  | None => match sr_offsets (view_fre fr) with _ :: r :: _ => Ok r | _ => Err MissingFreOffset end
  end.
Proof. exact ra_offset_spec. Qed.
Print Assumptions C21_ra_offset.

Theorem C21_fp_offset : forall fr sf,
  fre_fp_offset fr sf =
  match fixed_fp_offset sf with
  | Some o => Ok o
  | None =>
      match fixed_ra_offset sf, sr_offsets (view_fre fr) with
      | Some _, _ :: f :: _ => Ok f
      | None, _ :: _ :: f :: _ => Ok f
      | _, _ => Err MissingFreOffset
      end
  end.
Proof. exact fp_offset_spec. Qed.
Print Assumptions C21_fp_offset.

(** For a row read from bytes. *)
Theorem C21_decoded : forall md e f bs aw r rest fr rest' sf,
  wf_mode md -> fde_ok f -> width_of (fre_type_num (fde_info f)) = Some aw ->
  spec_row_at e aw bs r rest -> fre_load md e f bs = Ok (fr, rest') ->
  fre_cfa_offset fr = stored r 0 /\
  fre_ra_offset fr sf = match fixed_ra_offset sf with Some o => Ok o | None => stored r 1 end /\
  fre_fp_offset fr sf =
    match fixed_fp_offset sf, fixed_ra_offset sf with
    | Some o, _ => Ok o
    | None, Some _ => stored r 1
    | None, None => stored r 2
    end.
Proof. exact decoded_offsets. Qed.
Print Assumptions C21_decoded.

(** The same when the section is read from bytes too: the fixed offsets are bytes 5 and 6 of it. *)
Theorem C21_from_the_header : forall md e img sf f bs aw r rest fr rest',
  wf_mode md -> rust_slice md img -> load md e img = Ok sf ->
  fde_ok f -> width_of (fre_type_num (fde_info f)) = Some aw ->
  spec_row_at e aw bs r rest -> fre_load md e f bs = Ok (fr, rest') ->
  fre_cfa_offset fr = stored r 0 /\
  fre_ra_offset fr sf =
    (if spec_fixed_ra img =? 0 then stored r 1 else Ok (spec_fixed_ra img)) /\
  fre_fp_offset fr sf =
    (if negb (spec_fixed_fp img =? 0) then Ok (spec_fixed_fp img)
     else if spec_fixed_ra img =? 0 then stored r 2 else stored r 1).
Proof. exact decoded_in_section. Qed.
Print Assumptions C21_from_the_header.

Example C21_header_case :
  load rel64 LE fixed_header = Ok fixed_header_sf /\
  spec_row_at LE 1 two_offsets (SpecRow 0 true false [16; -16]) [] /\
  fre_load rel64 LE two_offsets_fde two_offsets = Ok (Fre two_offsets_fde 0 5 [16; -16; 0], []) /\
  let fr := Fre two_offsets_fde 0 5 [16; -16; 0] in
  fre_cfa_offset fr = Ok 16 /\ fre_ra_offset fr fixed_header_sf = Ok (-8) /\
  fre_fp_offset fr fixed_header_sf = Ok (-16).
Proof. exact fixed_header_case. Qed.

Example C21_case :
  let fr := Fre (FdeV2 (RawFde2 0 16 0 1 0 0 0)) 0 7 [8; -8; -16] in
  sr_offsets (view_fre fr) = [8; -8; -16] /\ fre_fp_offset fr (demo_sf LE) = Ok (-16).
Proof. vm_compute. split; reflexivity. Qed.

(** * C22 A row's start address is the function start plus its offset *)

Theorem C22_start_address : forall E md fr,
  let exact := fde_start_address (fr_fde fr) + fre_start_address_offset fr in
  (in_i32 exact -> @fre_start_address E md fr = Ok exact) /\
  (~ in_i32 exact ->
     (debug_asserts md = true -> @fre_start_address E md fr = Panic) /\
     (debug_asserts md = false ->
        exists w, @fre_start_address E md fr = Ok w /\ in_i32 w /\ (w - exact) mod 2 ^ 32 = 0)).
Proof. exact @start_address_spec. Qed.
Print Assumptions C22_start_address.

Example C22_case :
  let fr := Fre (FdeV2 (RawFde2 2147483640 100 0 1 0 0 0)) 8 7 [8; -8; -16] in
  @fre_start_address never rel64 fr = Ok (-2147483648) /\ @fre_start_address never dev64 fr = Panic.
Proof. vm_compute. split; reflexivity. Qed.

(** * C23 FDE info byte fields are independent *)

Theorem C23_set_fretype : forall t i, in_u8 i ->
  in_u8 (set_fretype t i) /\
  fde_fields (set_fretype t i) = (t, fdetype i, pauth_key i, i / 32).
Proof. exact set_fretype_fields. Qed.
Print Assumptions C23_set_fretype.

Theorem C23_set_fdetype : forall t i, in_u8 i ->
  in_u8 (set_fdetype t i) /\
  fde_fields (set_fdetype t i) = (fretype i, t, pauth_key i, i / 32).
Proof. exact set_fdetype_fields. Qed.
Print Assumptions C23_set_fdetype.

Theorem C23_set_pauth_key : forall t i, in_u8 i ->
  in_u8 (set_pauth_key t i) /\
  fde_fields (set_pauth_key t i) = (fretype i, fdetype i, t, i / 32).
Proof. exact set_pauth_key_fields. Qed.
Print Assumptions C23_set_pauth_key.

Theorem C23_unreachable : forall i, in_u8 i ->
  fretype_opt i <> None /\ fdetype_opt i <> None /\ pauth_key_opt i <> None.
Proof. exact fde_info_total. Qed.
Print Assumptions C23_unreachable.

Example C23_case : in_u8 0xAB /\ set_fretype Addr4 0xAB = 0xAA.
Proof. vm_compute. repeat split; discriminate. Qed.

(** * C24 FRE info byte fields are independent *)

Theorem C24_set_base : forall t i, in_u8 i ->
  in_u8 (set_cfa_base_reg_id t i) /\
  fre_fields (set_cfa_base_reg_id t i) = (t, offset_count i, offset_size i, mangled_ra_p i).
Proof. exact set_base_fields. Qed.
Print Assumptions C24_set_base.

Theorem C24_set_offset_size : forall t i, in_u8 i ->
  in_u8 (set_offset_size t i) /\
  fre_fields (set_offset_size t i) = (cfa_base_reg_id i, offset_count i, t, mangled_ra_p i).
Proof. exact set_offset_size_fields. Qed.
Print Assumptions C24_set_offset_size.

Theorem C24_set_mangled : forall v i, in_u8 i ->
  in_u8 (set_mangled_ra_p v i) /\
  fre_fields (set_mangled_ra_p v i) = (cfa_base_reg_id i, offset_count i, offset_size i, v).
Proof. exact set_mangled_fields. Qed.
Print Assumptions C24_set_mangled.

Theorem C24_set_offset_count : forall E c i, in_u8 i -> in_u8 c ->
  (15 < c /\ @set_offset_count E c i = Panic) \/
  (c <= 15 /\ exists j, @set_offset_count E c i = Ok j /\ in_u8 j /\
     fre_fields j = (cfa_base_reg_id i, c, offset_size i, mangled_ra_p i)).
Proof. exact @set_offset_count_fields. Qed.
Print Assumptions C24_set_offset_count.

Theorem C24_unreachable : forall i, in_u8 i ->
  cfa_base_reg_id_opt i <> None /\ offset_size_opt i <> None.
Proof. exact fre_info_total. Qed.
Print Assumptions C24_unreachable.

Example C24_case : in_u8 0x55 /\ @set_offset_count never 3 0x55 = Ok 0x47 /\ @set_offset_count never 16 0x55 = Panic.
Proof. vm_compute. repeat split; discriminate. Qed.

(** * C25 Info bytes follow the SFrame v2 bit layout: false for the FDE byte *)

Theorem C25_fde_layout_refuted :
  (exists i t, in_u8 i /\ bits 4 1 (set_fdetype t i) <> fde_type_u8 t) /\
  (exists i k, in_u8 i /\ bits 5 1 (set_pauth_key k i) <> pauth_u8 k) /\
  (exists i, in_u8 i /\ fre_type_u8 (fretype i) <> bits 0 4 i).
Proof. exact fde_layout_refuted. Qed.
Print Assumptions C25_fde_layout_refuted.

Theorem C25_fre_layout_partial : forall i, in_u8 i ->
  base_reg_u8 (cfa_base_reg_id i) = bits 0 1 i /\ offset_count i = bits 1 4 i /\
  fre_offset_u8 (offset_size i) = bits 5 2 i /\ mangled_ra_p i = (bits 7 1 i =? 1).
Proof. exact fre_layout. Qed.
Print Assumptions C25_fre_layout_partial.

(** The layout the code uses instead, and on which bytes it agrees. *)
Theorem C25_fde_layout_actual_partial : forall i, in_u8 i ->
  fre_type_u8 (fretype i) = bits 0 3 i /\ fde_type_u8 (fdetype i) = bits 3 1 i /\
  pauth_u8 (pauth_key i) = bits 4 1 i.
Proof. exact fde_layout_actual. Qed.
Print Assumptions C25_fde_layout_actual_partial.

Theorem C25_fde_layout_agree_partial : forall i, in_u8 i ->
  (fre_type_u8 (fretype i) = bits 0 4 i <-> bits 3 1 i = 0) /\
  (fde_type_u8 (fdetype i) = bits 4 1 i <-> bits 3 1 i = bits 4 1 i) /\
  (pauth_u8 (pauth_key i) = bits 5 1 i <-> bits 4 1 i = bits 5 1 i).
Proof. exact fde_layout_agree. Qed.
Print Assumptions C25_fde_layout_agree_partial.
