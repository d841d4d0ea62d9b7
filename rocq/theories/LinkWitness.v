(** Two tables converted together and apart (C150). *)
From Verif Require Import WriteWitness ConvWitness RelateWitness.
From Verif Require Export LinkFacts.

(** The two functions of the sample, each in a table of its own. *)
Definition front : eh_frame := of_functions [fn_prologue].
Definition front_sfb : sfb := Eval vm_compute in got (dwarf2sframe rel64 amd front).
Definition front_bytes (e : endian) : bytes := section e front_sfb.
Definition read_of (e : endian) (bs : bytes) : sfb :=
  match section_read rel64 e (get_ok dummy_sf (load rel64 e bs)) with Some s => s | None => sfb_new options_new end.

Theorem linked_case e :
  eh_typed front /\ eh_typed alone /\ effective_endian amd alone = effective_endian amd front /\ ents_end (eh_entries front) = None /\
  dwarf2sframe rel64 amd front = Ok front_sfb /\ dwarf2sframe rel64 amd alone = Ok alone_sfb /\
  build rel64 e front_sfb = Ok (front_bytes e) /\ build rel64 e alone_sfb = Ok (alone_bytes e) /\
  rust_slice rel64 (front_bytes e) /\ rust_slice rel64 (alone_bytes e) /\
  (exists sf sf' t, load rel64 e (front_bytes e) = Ok sf /\ load rel64 e (alone_bytes e) = Ok sf' /\
     section_read rel64 e sf = Some (read_of e (front_bytes e)) /\ section_read rel64 e sf' = Some (read_of e (alone_bytes e)) /\
     joined_sfb (read_of e (front_bytes e)) (read_of e (alone_bytes e)) t /\ build rel64 e t = Ok (sample_bytes e)) /\
  dwarf2sframe rel64 amd (joined front alone) = Ok sample_sfb /\ build rel64 e sample_sfb = Ok (sample_bytes e).
Proof.
  split; [typed_eh|]. split; [apply alone_case, LE|]. split; [reflexivity|]. split; [reflexivity|].
  do 6 (split; [destruct e; vm_compute; reflexivity|]).
  split; [|split; destruct e; vm_compute; reflexivity].
  exists (get_ok dummy_sf (load rel64 e (front_bytes e))), (get_ok dummy_sf (load rel64 e (alone_bytes e))).
  exists (get_ok (sfb_new options_new) (add_fdes (read_of e (front_bytes e)) (fdes_of (read_of e (alone_bytes e))))).
  do 5 (split; [destruct e; vm_compute; reflexivity|]). destruct e; vm_compute; reflexivity.
Qed.

(** The first converter. *)
Definition v1_front : dw_entries := DwEntries [DwGoodFde fn_whole] None.
Definition v1_back : dw_entries := DwEntries [DwGoodFde fn_plt] None.
Theorem v1_linked_case :
  ents_typed v1_front /\ ents_typed v1_back /\ ents_end v1_front = None /\
  exists s s' bs bs' sf sf', v1_convert rel64 v1_any v1_front = Ok s /\ v1_convert rel64 v1_any v1_back = Ok s' /\
    build rel64 LE s = Ok bs /\ build rel64 LE s' = Ok bs' /\ rust_slice rel64 bs /\ rust_slice rel64 bs' /\
    load rel64 LE bs = Ok sf /\ load rel64 LE bs' = Ok sf' /\ zlen (fdes_of s) = 1 /\ zlen (fdes_of s') = 1.
Proof.
  split; [change (eh_typed (in_eh v1_front)); typed_eh|]. split; [change (eh_typed (in_eh v1_back)); typed_eh|].
  split; [reflexivity|].
  exists (get_ok (sfb_new options_new) (v1_convert rel64 v1_any v1_front)), (get_ok (sfb_new options_new) (v1_convert rel64 v1_any v1_back)).
  exists (section LE (get_ok (sfb_new options_new) (v1_convert rel64 v1_any v1_front))), (section LE (get_ok (sfb_new options_new) (v1_convert rel64 v1_any v1_back))).
  exists (get_ok dummy_sf (load rel64 LE (section LE (get_ok (sfb_new options_new) (v1_convert rel64 v1_any v1_front))))).
  exists (get_ok dummy_sf (load rel64 LE (section LE (get_ok (sfb_new options_new) (v1_convert rel64 v1_any v1_back))))).
  do 9 (split; [vm_compute; reflexivity|]). vm_compute; reflexivity.
Qed.
