(** [alloc::collections::BTreeMap] with integer keys, as an association list.
    The operations keep the list sorted by key (proved in [BTreeFacts.v]). *)
From Verif Require Import Base.

Section BTree.
  Context {V : Type}.

  Definition btree : Type := list (Z * V).

  (** [BTreeMap::insert]: replaces the value of an existing key. *)
  Fixpoint bt_insert (k : Z) (v : V) (m : btree) : btree :=
    match m with
    | [] => [(k, v)]
    | (k', v') :: t =>
        if k <? k' then (k, v) :: m
        else if k =? k' then (k, v) :: t
        else (k', v') :: bt_insert k v t
    end.

  (** [BTreeMap::get]. *)
  Fixpoint bt_get (k : Z) (m : btree) : option V :=
    match m with
    | [] => None
    | (k', v') :: t => if k =? k' then Some v' else bt_get k t
    end.

  (** [BTreeMap::remove]. *)
  Definition bt_remove (k : Z) (m : btree) : btree :=
    filter (fun kv => negb (fst kv =? k)) m.

  (** [BTreeMap::first_key_value]. *)
  Definition bt_first (m : btree) : option (Z * V) := hd_error m.

  (** [BTreeMap::last_key_value]. *)
  Fixpoint bt_last (m : btree) : option (Z * V) :=
    match m with
    | [] => None
    | [kv] => Some kv
    | _ :: t => bt_last t
    end.

  (** [BTreeMap::range(k..)]: the entries from key [k] on, ascending. *)
  Definition bt_range_from (k : Z) (m : btree) : btree :=
    filter (fun kv => k <=? fst kv) m.

  (** [BTreeMap::values]. *)
  Definition bt_values (m : btree) : list V := map snd m.

  (** [BTreeMap::keys]. *)
  Definition bt_keys (m : btree) : list Z := map fst m.
End BTree.
Arguments btree V : clear implicits.
