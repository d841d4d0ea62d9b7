(** Concrete sections, made through the builder API, used by the examples and the
    refutations. *)
From Verif Require Export SearchFacts WriteSpec BTreeFacts.

(** Build profiles. *)
Definition rel64 : mode := Mode false false 64 BsBase.
Definition rel64old : mode := Mode false false 64 BsLeftRight.
Definition dev64 : mode := Mode true true 64 BsBase.
Definition rel32 : mode := Mode false false 32 BsBase.
Definition dev32 : mode := Mode true true 32 BsBase.

Lemma wf_rel64 : wf_mode rel64. Proof. right; reflexivity. Qed.
Lemma wf_rel64old : wf_mode rel64old. Proof. right; reflexivity. Qed.
Lemma wf_dev64 : wf_mode dev64. Proof. right; reflexivity. Qed.
Lemma wf_rel32 : wf_mode rel32. Proof. left; reflexivity. Qed.
Lemma wf_dev32 : wf_mode dev32. Proof. left; reflexivity. Qed.

(** Value of a successful call. *)
Definition get_ok {E A} (d : A) (o : outcome E A) : A := match o with Ok a => a | _ => d end.

Definition row3 (start cfa ra fp : Z) : row :=
  row_new Sp start {| ro_cfa := cfa; ro_ra := Some ra; ro_fp := Some fp |}.

(** Two functions with two and one rows; no fixed offsets. *)
Definition demo_f1 : fdb :=
  get_ok (fdb_new options_new 0 0)
    (add_rows (fdb_new options_new 0x100 16) [row3 0 8 (-8) (-16); row3 4 16 (-8) (-16)]).
Definition demo_f2 : fdb :=
  get_ok (fdb_new options_new 0 0)
    (add_rows (fdb_new options_new 0x200 300) [row3 2 24 (-8) (-16)]).
Definition demo_sfb : sfb :=
  get_ok (sfb_new options_new) (add_fdes (sfb_new options_new) [demo_f2; demo_f1]).
Definition demo (e : endian) : bytes := get_ok [] (build rel64 e demo_sfb).

Definition dummy_sf : sframe :=
  SFrame (Preamble 0 0 0) 0 0 0 0 0 [] (ListV2 []) [].
Definition demo_sf (e : endian) : sframe := get_ok dummy_sf (load rel64 e (demo e)).

Lemma demo_rows_ok :
  add_rows (fdb_new options_new 0x100 16) [row3 0 8 (-8) (-16); row3 4 16 (-8) (-16)] = Ok demo_f1 /\
  add_rows (fdb_new options_new 0x200 300) [row3 2 24 (-8) (-16)] = Ok demo_f2 /\
  add_fdes (sfb_new options_new) [demo_f2; demo_f1] = Ok demo_sfb.
Proof. vm_compute. repeat split. Qed.
Lemma demo_built e : build rel64 e demo_sfb = Ok (demo e).
Proof. destruct e; vm_compute; reflexivity. Qed.
Lemma demo_loads e : load rel64 e (demo e) = Ok (demo_sf e).
Proof. destruct e; vm_compute; reflexivity. Qed.
Lemma demo_slice md e : wf_mode md -> rust_slice md (demo e).
Proof. intros [H|H]; unfold rust_slice; rewrite H; destruct e; vm_compute; reflexivity. Qed.
Lemma demo_num_fdes e : spec_num_fdes e (demo e) = 2.
Proof. destruct e; vm_compute; reflexivity. Qed.

(** A function shrunk with [FuncDescBuilder::size] after a row was added. *)
Definition shrunk_f : fdb :=
  fdb_set_size 2
    (get_ok (fdb_new options_new 0 0)
       (add_rows (fdb_new options_new 0x100 16) [row3 4 16 (-8) (-16)])).
Definition shrunk_sfb : sfb :=
  get_ok (sfb_new options_new) (add_fdes (sfb_new options_new) [shrunk_f]).
Definition shrunk (e : endian) : bytes := get_ok [] (build rel64 e shrunk_sfb).
Definition shrunk_sf (e : endian) : sframe := get_ok dummy_sf (load rel64 e (shrunk e)).

(** The demo section with the sorted flag cleared (byte 3 of the header). *)
Definition unsorted (e : endian) : bytes := firstn 3 (demo e) ++ [x00] ++ skipn 4 (demo e).
Definition unsorted_sf (e : endian) : sframe := get_ok dummy_sf (load rel64 e (unsorted e)).
