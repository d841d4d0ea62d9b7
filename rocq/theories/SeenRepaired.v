(** The debug output of a section and the output of [sframedump] with one thing more
    each.  Nothing here is in /repo.

    - [section_text_with true]: [Debug for SFrame] (read.rs:217-236) has one more field,
      [aux], with the bytes of the auxiliary header;
    - [stdout_text_with true]: [sframedump] begins with a line that has the block size of
      every function, or [none] in version 1, which has none.

    With [false] they are [section_text] of Debug.v and [stdout_text] of Text.v. *)
From Coq Require Import String Ascii.
From Verif Require Import Base Raw Read Tools Text Debug.
Local Open Scope string_scope.

Definition aux_debug (sf : sframe) : dbg := DList (map (fun b => int_debug (bZ b)) (raw_aux sf)).
Definition section_debug_with (aux : bool) (dt : debug_texts) (md : mode) (e : endian) (sf : sframe) : outcome fuel_error dbg :=
  let* l := entries_debug md e (all_fdes sf) in
  Ok (DStruct "SFrame"
    ([("preamble", preamble_debug dt (sf_preamble sf));
      ("abi_arch", dt_abi dt (sf_abi_arch sf));
      ("fixed_fp_offset", option_debug int_debug (fixed_fp_offset sf));
      ("fixed_ra_offset", option_debug int_debug (fixed_ra_offset sf));
      ("num_fdes", int_debug (sf_num_fdes sf));
      ("num_fres", int_debug (sf_num_fres sf));
      ("fdes", DList l)]
     ++ if aux then [("aux", aux_debug sf)] else [])%list).
Definition section_text_with (aux alternate : bool) (dt : debug_texts) (md : mode) (e : endian) (sf : sframe)
  : outcome fuel_error string :=
  let* t := section_debug_with aux dt md e sf in
  Ok (print_debug alternate t).

Definition block_text (en : entry) : string := match en_rep_block_size en with Some n => fmt_dec n | None => "none" end.
Definition blocks_text (l : list entry) : string := "Block sizes:" ++ concat_text (map (fun en => " " ++ block_text en) l).
Definition stdout_text_with (blocks : bool) (abi_name : Z -> string) (sf : sframe) (l : list dump_line) : string :=
  (if blocks then blocks_text (all_fdes sf) ++ newline else "") ++ stdout_text abi_name l.
