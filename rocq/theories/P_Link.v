(** Property C150: converting together, and converting apart and joining. *)
From Verif Require Import WriteWitness ConvWitness RelateWitness LinkWitness.

(** * C150 Tables converted apart, built, read and joined give the section of the tables converted together *)

Theorem C150_linked : forall md op eh eh' s s',
  eh_typed eh -> eh_typed eh' -> effective_endian op eh' = effective_endian op eh ->
  ents_end (eh_entries eh) = None -> dwarf2sframe md op eh = Ok s -> dwarf2sframe md op eh' = Ok s' ->
  forall mdb mdb' e e' bs bs', build mdb e s = Ok bs -> build mdb' e' s' = Ok bs' ->
  forall mdr mdr' sf sf', wf_mode mdr -> wf_mode mdr' -> rust_slice mdr bs -> rust_slice mdr' bs' ->
  load mdr e bs = Ok sf -> load mdr' e' bs' = Ok sf' ->
  exists r r' t s'', section_read mdr e sf = Some r /\ section_read mdr' e' sf' = Some r' /\ joined_sfb r r' t /\
    dwarf2sframe md op (joined eh eh') = Ok s'' /\ forall md2 e2, build md2 e2 t = build md2 e2 s''.
Proof. exact linked. Qed.
Print Assumptions C150_linked.

(** The same for the first converter. *)
Theorem C150_first_converter : forall md p ents ents' s s',
  ents_typed ents -> ents_typed ents' -> ents_end ents = None ->
  v1_convert md p ents = Ok s -> v1_convert md p ents' = Ok s' ->
  forall mdb mdb' e e' bs bs', build mdb e s = Ok bs -> build mdb' e' s' = Ok bs' ->
  forall mdr mdr' sf sf', wf_mode mdr -> wf_mode mdr' -> rust_slice mdr bs -> rust_slice mdr' bs' ->
  load mdr e bs = Ok sf -> load mdr' e' bs' = Ok sf' ->
  exists r r' t s'', section_read mdr e sf = Some r /\ section_read mdr' e' sf' = Some r' /\ joined_sfb r r' t /\
    v1_convert md p (eh_entries (joined (in_eh ents) (in_eh ents'))) = Ok s'' /\ forall md2 e2, build md2 e2 t = build md2 e2 s''.
Proof. exact v1_linked. Qed.
Print Assumptions C150_first_converter.

(** Joining is taking the functions of the second and those of the first that start elsewhere. *)
Theorem C150_join_is_union : forall md1 md2 md s s' t,
  sfb_reach md1 s -> sfb_reach md2 s' -> sb_options s = sb_options s' -> sfb_reach md t ->
  (joined_sfb s s' t <-> union_of s s' t).
Proof. exact join_union. Qed.
Print Assumptions C150_join_is_union.

Theorem C150_case : forall e,
  eh_typed front /\ eh_typed alone /\ effective_endian amd alone = effective_endian amd front /\ ents_end (eh_entries front) = None /\
  dwarf2sframe rel64 amd front = Ok front_sfb /\ dwarf2sframe rel64 amd alone = Ok alone_sfb /\
  build rel64 e front_sfb = Ok (front_bytes e) /\ build rel64 e alone_sfb = Ok (alone_bytes e) /\
  rust_slice rel64 (front_bytes e) /\ rust_slice rel64 (alone_bytes e) /\
  (exists sf sf' t, load rel64 e (front_bytes e) = Ok sf /\ load rel64 e (alone_bytes e) = Ok sf' /\
     section_read rel64 e sf = Some (read_of e (front_bytes e)) /\ section_read rel64 e sf' = Some (read_of e (alone_bytes e)) /\
     joined_sfb (read_of e (front_bytes e)) (read_of e (alone_bytes e)) t /\ build rel64 e t = Ok (sample_bytes e)) /\
  dwarf2sframe rel64 amd (joined front alone) = Ok sample_sfb /\ build rel64 e sample_sfb = Ok (sample_bytes e).
Proof. exact linked_case. Qed.
Print Assumptions C150_case.

Theorem C150_first_converter_case :
  ents_typed v1_front /\ ents_typed v1_back /\ ents_end v1_front = None /\
  exists s s' bs bs' sf sf', v1_convert rel64 v1_any v1_front = Ok s /\ v1_convert rel64 v1_any v1_back = Ok s' /\
    build rel64 LE s = Ok bs /\ build rel64 LE s' = Ok bs' /\ rust_slice rel64 bs /\ rust_slice rel64 bs' /\
    load rel64 LE bs = Ok sf /\ load rel64 LE bs' = Ok sf' /\ zlen (fdes_of s) = 1 /\ zlen (fdes_of s') = 1.
Proof. exact v1_linked_case. Qed.
Print Assumptions C150_first_converter_case.
