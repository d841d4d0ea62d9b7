(** How many rows a section hands out (C152). *)
From Verif Require Import Base Raw Read ReadSpec.

(** The rows among the answers of an iterator. *)
Definition rows_among (os : list (option fre_item)) : Z :=
  zlen (filter (fun o => match o with Some (inl _) => true | _ => false end) os).

(** Some number of calls of [next] on the row iterator of the function give [k] rows. *)
Definition handed (md : mode) (e : endian) (en : entry) (k : Z) : Prop :=
  exists n os it, fri_calls n md e (fres en) = Ok (os, it) /\ rows_among os = k.

(** So many rows altogether when every function of the section is iterated once. *)
Definition handed_all (md : mode) (e : endian) (sf : sframe) (total : Z) : Prop :=
  exists ks, Forall2 (handed md e) (all_fdes sf) ks /\ total = fold_right Z.add 0 ks.

(** The rows the descriptors of the section count. *)
Definition counted (sf : sframe) : Z := fold_right Z.add 0 (map (fun en => fde_num_fres (en_fde en)) (all_fdes sf)).
