(** Specification of the builders' setters: sequences of calls and what was
    asked for last. *)
From Verif Require Export WriteSpec ConvSpec.

(** The argument of the last call selected by [f], or [d]. *)
Fixpoint last_call {C A} (f : C -> option A) (d : A) (l : list C) : A :=
  match l with
  | [] => d
  | c :: t => last_call f (match f c with Some a => a | None => d end) t
  end.

(** ** [FuncDescBuilder] *)

Inductive fdb_call : Type :=
| FcPcInc
| FcPcMask (rep : Z)
| FcStart (a : Z)
| FcSize (n : Z)
| FcKey (k : pauth)
| FcRow (r : row)
| FcMerge.
(** The builder after a call; a refused row counts as a call too. *)
Definition fdb_run_call (b : fdb) (c : fdb_call) : fdb :=
  match c with
  | FcPcInc => fdb_pcinc b
  | FcPcMask rep => fdb_pcmask rep b
  | FcStart a => fdb_set_start a b
  | FcSize n => fdb_set_size n b
  | FcKey k => fdb_set_pauth k b
  | FcRow r => fst (fdb_row_st b r)
  | FcMerge => match merge_adjacent_fres b with Ok b' => b' | _ => b end
  end.
Definition fdb_run (o : sframe_options) (start size : Z) (l : list fdb_call) : fdb :=
  fold_left fdb_run_call l (fdb_new o start size).

Definition asked_start (d : Z) := last_call (fun c => match c with FcStart a => Some a | _ => None end) d.
Definition asked_size (d : Z) := last_call (fun c => match c with FcSize n => Some n | _ => None end) d.
Definition asked_key := last_call (fun c => match c with FcKey k => Some k | _ => None end) KeyA.
(** [None]: PCINC. *)
Definition asked_rep :=
  last_call (fun c => match c with FcPcInc => Some None | FcPcMask r => Some (Some r) | _ => None end) None.
(** Calls that are about rows. *)
Definition touches_rows (c : fdb_call) : bool := match c with FcRow _ | FcMerge => true | _ => false end.

(** ** [Options] of the converter *)

Inductive conv_call : Type :=
| CcMergeFres (v : bool)
| CcMergeFdes (v : bool)
| CcEndian (v : option rt_endian)
| CcArch (a : arch)
| CcDebugdump (v : bool)
| CcWarnings (v : bool).
Definition conv_run_call (o : options) (c : conv_call) : options :=
  match c with
  | CcMergeFres v => conv_merge_fres v o
  | CcMergeFdes v => conv_merge_fdes v o
  | CcEndian v => conv_endian v o
  | CcArch a => conv_arch a o
  | CcDebugdump v => conv_debugdump v o
  | CcWarnings v => conv_warnings v o
  end.
Definition conv_run (a : arch) (l : list conv_call) : options := fold_left conv_run_call l (conv_options_new a).
(** lib.rs documents these defaults. *)
Definition asked_merge_fres := last_call (fun c => match c with CcMergeFres v => Some v | _ => None end) true.
Definition asked_merge_fdes := last_call (fun c => match c with CcMergeFdes v => Some v | _ => None end) true.
Definition asked_endian := last_call (fun c => match c with CcEndian v => Some v | _ => None end) None.
Definition asked_arch (a : arch) := last_call (fun c => match c with CcArch v => Some v | _ => None end) a.
Definition asked_debugdump := last_call (fun c => match c with CcDebugdump v => Some v | _ => None end) false.
Definition asked_warnings := last_call (fun c => match c with CcWarnings v => Some v | _ => None end) false.
