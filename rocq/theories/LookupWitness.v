(** Built and converted sections in which looking up an address fails, panics or
    always gives the same answer (C65, C135). *)
From Verif Require Export LookupExact LookupConv SectionWitness ConvWitness.

(** ** Converted sections *)

(** A short function, and one with a row more than 127 bytes inside. *)
Definition long_rows : list dw_row := [amd_row 0x2000 0x2081 7 8 RUndefined; amd_row 0x2081 0x2100 7 16 RUndefined].
Definition short_long (cfa : Z) : eh_frame := of_functions
  [ DwFde 0x1000 0x20 nops (rows_ok [amd_row 0x1000 0x1020 7 cfa RUndefined]);
    DwFde 0x2000 0x100 nops (rows_ok long_rows) ].
Definition sl_sfb (cfa : Z) : sfb := got (dwarf2sframe rel64 amd (short_long cfa)).
Definition sl_bytes (e : endian) (cfa : Z) : bytes := section e (sl_sfb cfa).
Definition sl_sf (e : endian) (cfa : Z) : sframe := get_ok dummy_sf (load rel64 e (sl_bytes e cfa)).

Lemma short_long_typed cfa : 0 <= cfa <= 100 -> eh_typed (short_long cfa).
Proof. intros H. typed_eh. Qed.
Lemma short_long_asked cfa : dwarf_says (short_long cfa) 0x2010 (amd_row 0x2000 0x2081 7 8 RUndefined).
Proof.
  exists (DwFde 0x2000 0x100 nops (rows_ok long_rows)). split.
  - exists [DwFde 0x1000 0x20 nops (rows_ok [amd_row 0x1000 0x1020 7 cfa RUndefined])], []. split; [reflexivity|intros ? []].
  - unfold in_range. cbn. split; [lia|]. split; [left; reflexivity|lia].
Qed.

(** The rows of the short function are read with starts of two bytes. *)
Theorem converted_lookup_fails : forall e, 
  eh_typed (short_long 8) /\ dwarf2sframe rel64 amd (short_long 8) = Ok (sl_sfb 8) /\
  build rel64 e (sl_sfb 8) = Ok (sl_bytes e 8) /\ load rel64 e (sl_bytes e 8) = Ok (sl_sf e 8) /\
  dwarf_says (short_long 8) 0x2010 (amd_row 0x2000 0x2081 7 8 RUndefined) /\
  Forall (fun md => lookup md e (sl_sf e 8) 0x2010 = Err (inr (InvalidFreOffsetCount 4))) [rel64; rel64old; dev64; rel32; dev32].
Proof.
  intros e. split; [apply short_long_typed; lia|]. split; [vm_compute; reflexivity|].
  split; [destruct e; vm_compute; reflexivity|]. split; [destruct e; vm_compute; reflexivity|].
  split; [apply short_long_asked|]. destruct e; repeat (apply Forall_cons || apply Forall_nil); vm_compute; reflexivity.
Qed.

Theorem converted_lookup_panics :
  eh_typed (short_long 32) /\ dwarf2sframe rel64 amd (short_long 32) = Ok (sl_sfb 32) /\
  build rel64 LE (sl_sfb 32) = Ok (sl_bytes LE 32) /\ load rel64 LE (sl_bytes LE 32) = Ok (sl_sf LE 32) /\
  dwarf_says (short_long 32) 0x2010 (amd_row 0x2000 0x2081 7 8 RUndefined) /\
  Forall (fun md => lookup md LE (sl_sf LE 32) 0x2010 = Panic) [rel64; rel64old; dev64; rel32; dev32].
Proof.
  split; [apply short_long_typed; lia|]. split; [vm_compute; reflexivity|].
  split; [vm_compute; reflexivity|]. split; [vm_compute; reflexivity|].
  split; [apply short_long_asked|]. repeat (apply Forall_cons || apply Forall_nil); vm_compute; reflexivity.
Qed.

(** ** A built section *)

(** All starts take one byte; the first row lies further inside than the second function is long. *)
Definition late_f1 : fdb := get_ok (fdb_new options_new 0x100 100) (add_rows (fdb_new options_new 0x100 100) [row3 50 8 (-8) (-16)]).
Definition late_f2 : fdb := get_ok (fdb_new options_new 0x200 10) (add_rows (fdb_new options_new 0x200 10) [row3 0 24 (-8) (-16)]).
Definition late_sfb : sfb := get_ok (sfb_new options_new) (add_fdes (sfb_new options_new) [late_f1; late_f2]).
Definition late_sf (e : endian) : sframe := get_ok dummy_sf (load rel64 e (section e late_sfb)).

Lemma late_sized md : sfb_sized md late_sfb.
Proof.
  apply (add_fdes_sized md [late_f1; late_f2] (sfb_new options_new)).
  - constructor. constructor.
  - repeat apply Forall_cons; try apply Forall_nil.
    + apply (add_rows_sized [row3 50 8 (-8) (-16)] (fdb_new options_new 0x100 100));
        [constructor; [constructor|in_range|in_range]|typed_rows|vm_compute; reflexivity].
    + apply (add_rows_sized [row3 0 24 (-8) (-16)] (fdb_new options_new 0x200 10));
        [constructor; [constructor|in_range|in_range]|typed_rows|vm_compute; reflexivity].
  - vm_compute. reflexivity.
Qed.

Theorem built_lookup_panics : forall e,
  sfb_sized rel64 late_sfb /\ build rel64 e late_sfb = Ok (section e late_sfb) /\
  load rel64 e (section e late_sfb) = Ok (late_sf e) /\
  asked_at late_sfb 0x204 (Unwind Sp false (Some 24) (Some (-8)) (Some (-16))) /\
  Forall (fun md => lookup md e (late_sf e) 0x204 = Panic) [rel64; rel64old; dev64; rel32; dev32].
Proof.
  intros e. split; [apply late_sized|]. split; [destruct e; vm_compute; reflexivity|]. split; [destruct e; vm_compute; reflexivity|].
  split; [|destruct e; repeat (apply Forall_cons || apply Forall_nil); vm_compute; reflexivity].
  exists late_f2, (row3 0 24 (-8) (-16)). unfold in_range.
  split; [right; left; reflexivity|]. split; [split; vm_compute; [discriminate|reflexivity]|].
  split; [in_effect_by_cases|reflexivity].
Qed.

(** ** Every answer is the same *)

Definition same_row (start : Z) : fdb :=
  get_ok (fdb_new options_new 0 0) (add_rows (fdb_new options_new start 16) [row3 0 (start / 16) (-8) (-16); row3 4 32 (-8) (-16)]).
Definition three_sfb : sfb :=
  get_ok (sfb_new options_new) (add_fdes (sfb_new options_new) [same_row 0x80; same_row 0x100; same_row 0x200]).
Definition three_sf (e : endian) : sframe := get_ok dummy_sf (load rel64 e (section e three_sfb)).

Lemma same_row_sized start : start = 0x80 \/ start = 0x100 \/ start = 0x200 -> fdb_sized (same_row start).
Proof.
  intros H. apply (add_rows_sized [row3 0 (start / 16) (-8) (-16); row3 4 32 (-8) (-16)] (fdb_new options_new start 16));
    destruct H as [->|[->| ->]]; first [constructor; [constructor|in_range|in_range]|typed_rows|vm_compute; reflexivity].
Qed.
Lemma three_sized md : sfb_sized md three_sfb.
Proof.
  apply (add_fdes_sized md [same_row 0x80; same_row 0x100; same_row 0x200] (sfb_new options_new)).
  - constructor. constructor.
  - repeat apply Forall_cons; try apply Forall_nil; apply same_row_sized; auto.
  - vm_compute. reflexivity.
Qed.
Lemma three_plain : plainly_built three_sfb.
Proof.
  assert (F : fdes_of three_sfb = [same_row 0x80; same_row 0x100; same_row 0x200]) by reflexivity.
  unfold plainly_built. rewrite F. split; [|split].
  - intros b c Hb Hc. destruct Hb as [<-|[<-|[<-|[]]]], Hc as [<-|[<-|[<-|[]]]]; reflexivity.
  - intros b [<-|[<-|[<-|[]]]]; vm_compute; discriminate.
  - intros r rest H. assert (E : stored_rows three_sfb = row3 0 8 (-8) (-16) :: List.tl (stored_rows three_sfb)) by (vm_compute; reflexivity).
    rewrite E in H. apply (f_equal (hd r)) in H. cbn [hd] in H. subst r. reflexivity.
Qed.

Theorem three_answers : forall e,
  sfb_sized rel64 three_sfb /\ build rel64 e three_sfb = Ok (section e three_sfb) /\
  load rel64 e (section e three_sfb) = Ok (three_sf e) /\ plainly_built three_sfb /\
  near rel64 three_sfb 0x80 /\
  map (lookup rel64old e (three_sf e)) [0x80; 0x100; 0x106; 0x200; 0x400] =
    [Ok None; Ok (Some (Unwind Sp false (Some 8) (Some (-8)) (Some (-16))));
     Ok (Some (Unwind Sp false (Some 8) (Some (-8)) (Some (-16)))); Ok None; Ok None] /\
  asked_at three_sfb 0x106 (Unwind Sp false (Some 32) (Some (-8)) (Some (-16))).
Proof.
  intros e. split; [apply three_sized|]. split; [destruct e; vm_compute; reflexivity|]. split; [destruct e; vm_compute; reflexivity|].
  split; [apply three_plain|]. split; [left; reflexivity|]. split; [destruct e; vm_compute; reflexivity|].
  exists (same_row 0x100), (row3 4 32 (-8) (-16)). unfold in_range.
  split; [right; left; reflexivity|]. split; [split; vm_compute; [discriminate|reflexivity]|].
  split; [in_effect_by_cases|reflexivity].
Qed.

(** The rows of the first function are searched for the second. *)
Theorem late_reached : forall e,
  reached (bsearch rel64) (zlen (fdes_of late_sfb)) 1 = true /\ uniform late_sfb late_f2 /\
  nth_error (fdes_of late_sfb) 1 = Some late_f2 /\ in_range (fb_start late_f2) (fb_size late_f2) 0x204 /\
  fb_rep_size late_f2 <> Some 0 /\ near rel64 late_sfb 0x204 /\
  firstn (length (rows_of late_f2)) (stored_rows late_sfb) = [] ++ [row3 50 8 (-8) (-16)] /\
  fb_size late_f2 <= 50 /\ lookup rel64 e (late_sf e) 0x204 = Panic.
Proof.
  intros e. split; [vm_compute; reflexivity|]. split.
  { assert (F : fdes_of late_sfb = [late_f1; late_f2]) by reflexivity. unfold uniform. rewrite F.
    intros c [<-|[<-|[]]]; reflexivity. }
  split; [reflexivity|]. split; [split; vm_compute; [discriminate|reflexivity]|]. split; [vm_compute; discriminate|].
  split; [left; reflexivity|]. split; [reflexivity|]. split; [vm_compute; discriminate|]. destruct e; vm_compute; reflexivity.
Qed.

(** ** A converted section without failures *)

Theorem sample_answers : forall e, eh_typed sample /\ dwarf2sframe rel64 amd sample = Ok sample_sfb /\
  (forall f, In f (functions (entries_of sample)) -> rows_near f) /\
  build rel64 e sample_sfb = Ok (sample_bytes e) /\ wf_mode rel64 /\ rust_slice rel64 (sample_bytes e) /\
  near rel64 sample_sfb 0x2003 /\
  dwarf_says sample 0x2003 (amd_row 0x2000 0x2006 7 16 RUndefined) /\
  lookup rel64 e (get_ok dummy_sf (load rel64 e (sample_bytes e))) 0x2003 = Ok (Some (Unwind Sp false (Some 8) (Some (-8)) None)).
Proof.
  intros e. split; [apply sample_typed|]. split; [apply sample_converts|]. split.
  { intros f Hf. cbn in Hf. destruct Hf as [<-|[<-|[]]]; (split; [right; eexists; split; [left; reflexivity|reflexivity]|]);
      intros r Hr; cbn in Hr; repeat (destruct Hr as [<-|Hr]; [vm_compute; discriminate|]); destruct Hr. }
  split; [apply sample_builds|]. assert (Hw : wf_mode rel64) by (vm_compute; auto). split; [exact Hw|]. split; [apply sample_slice, Hw|].
  split; [left; reflexivity|]. split; [|destruct e; vm_compute; reflexivity].
  exists fn_plt. split; [exists [fn_prologue], []; split; [reflexivity|intros ? []]|].
  unfold in_range. cbn. split; [lia|]. split; [left; reflexivity|lia].
Qed.
