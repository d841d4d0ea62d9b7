(** Properties C105 to C107: the repository's tests, mixed iteration, and the cost
    of a search. *)
From Verif Require Import IterFacts.

(** * C105 The repository's own tests pass on every target *)

Theorem C105_tests : forall md e, wf_mode md ->
  passes (test_roundtrip md e) /\ passes (test_roundtrip_u16_offset md e) /\ passes (test_roundtrip_invalid_fre md e) /\
  passes test_info_base /\ passes test_info_count /\ passes test_info_size /\ passes (test_bpf_add md).
Proof. exact tests_pass. Qed.
Print Assumptions C105_tests.

Example C105_case : wf_mode rel64 /\ wf_mode dev32 /\ ~ passes (check (base_reg_eqb (cfa_base_reg_id 0) Sp)).
Proof. split; [right; reflexivity|]. split; [left; reflexivity|discriminate]. Qed.

(** * C106 Mixed iteration delivers every descriptor at most once, in its place *)

Theorem C106_mixed_iteration : forall sf l,
  let (rs, it) := calls l (fdes sf) in
  let (is, w) := expected l 0 (length (all_fdes sf)) in
  Forall2 (at_position sf) is rs /\ NoDup (delivered is) /\
  fdi_size_hint it = (Z.of_nat (snd w - fst w), Some (Z.of_nat (snd w - fst w))).
Proof. exact mixed_iteration. Qed.
Print Assumptions C106_mixed_iteration.

Example C106_case :
  load rel64 LE five_bytes = Ok five_sf /\ length (all_fdes five_sf) = 5%nat /\
  fst (expected [Nth 1; NextBack; Next; Next; NextBack; Next] 0 5) = [Some 1; Some 4; Some 2; Some 3; None; None]%nat /\
  map (option_map en_start_address) (fst (calls [Nth 1; NextBack; Next; Next; NextBack; Next] (fdes five_sf))) =
    [Some 0x2000; Some 0x5000; Some 0x3000; Some 0x4000; None; None].
Proof. exact iteration_case. Qed.

(** * C107 A search in a sorted section looks at few descriptors *)

(** All others could be replaced without changing what is found. *)
Theorem C107_search_cost : forall md sf a,
  says_sorted sf ->
  exists s,
    (length s <= S (Nat.log2_up (length (all_fdes sf))))%nat /\
    forall sf', says_sorted sf' -> length (all_fdes sf') = length (all_fdes sf) ->
      Forall (same_descriptor sf sf') s ->
      found (fde_for_address md sf' a) = found (fde_for_address md sf a).
Proof. exact search_looks. Qed.
Print Assumptions C107_search_cost.

Example C107_case :
  load rel64 LE five_bytes = Ok five_sf /\ says_sorted five_sf /\
  S (Nat.log2_up (length (all_fdes five_sf))) = 4%nat /\
  exists f, found (fde_for_address rel64old five_sf 0x3010) = Ok (Some f) /\ fde_start_address f = 0x3000.
Proof. exact search_case. Qed.
