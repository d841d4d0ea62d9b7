(** What [merge_adjacent_fdes] does to a list of functions. *)
From Verif Require Export WriteSpec.

(** The block size two merged functions are given. *)
Definition block_size (a b : fdb) : Z :=
  match fb_rep_size a, fb_rep_size b with
  | Some n, _ => n
  | None, Some n => n
  | None, None => fb_size a
  end.
Definition join (a b : fdb) : fdb :=
  {| fb_options := fb_options a; fb_start := fb_start a; fb_size := fb_size a + fb_size b;
     fb_rep_size := Some (block_size a b); fb_pauth := fb_pauth a; fb_fres := fb_fres a |}.

(** From the lowest address up, each function takes in its successor as long as the
    two are mergeable. *)
Inductive merges (md : mode) : list fdb -> list fdb -> Prop :=
| mg_nil : merges md [] []
| mg_last a : merges md [a] [a]
| mg_join a b t l : mergeable md a b -> merges md (join a b :: t) l -> merges md (a :: b :: t) l
| mg_keep a b t l : ~ mergeable md a b -> merges md (b :: t) l -> merges md (a :: b :: t) (a :: l).

(** Two functions with the same key whose distance overflows in a checked build. *)
Definition too_far (md : mode) (a b : fdb) : Prop :=
  overflow_checks md = true /\ fb_pauth a = fb_pauth b /\ 2 ^ 31 < fb_start b - fb_start a.
(** They are compared on the way. *)
Inductive jams (md : mode) : list fdb -> Prop :=
| jm_here a b t : too_far md a b -> jams md (a :: b :: t)
| jm_join a b t : mergeable md a b -> jams md (join a b :: t) -> jams md (a :: b :: t)
| jm_keep a b t : ~ mergeable md a b -> jams md (b :: t) -> jams md (a :: b :: t).
