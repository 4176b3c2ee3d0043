(** * What is expected of keys that are handed out. *)
From Verif Require Import Prog NumModel IpModel UxModel SliceModel.
Open Scope nat_scope.

(** The arrays of the keys handed out. *)
Definition handed_arrays {V} (o : list (slice * slice * V)) : list loc := concat (map (fun t => [sl_arr t.1.1; sl_arr t.1.2]) o).

(** At any moment [s], if the keys and values to be handed out read [e]:
    the code is not stuck (nor does it panic); it does not end before all of them
    are handed out; the next one to be handed out reads as it should, and nobody
    else has access to its arrays; nothing that anyone else has access to, among it
    all the keys handed out before, is changed by the code; no two keys share
    an array. *)
Record handed {V} (e : list (bytes * bytes * V)) (s : state V) : Prop := Handed {
  ha_on : st_code s = KEnd \/ exists s', own s s';
  ha_all : st_code s = KEnd -> length (st_out s) = length e;
  ha_next : forall ip mask v k, st_code s = KGive ip mask v k ->
    nth_error e (length (st_out s)) = Some (seen (st_mem s) ip, seen (st_mem s) mask, v) /\
    sl_arr ip ∉ st_others s /\ sl_arr mask ∉ st_others s;
  ha_others : forall s' a, own s s' -> a ∈ st_others s -> st_mem s' !! a = st_mem s !! a;
  ha_apart : NoDup (handed_arrays (st_out s)) }.
(** [k], started among any arrays of others, whatever the others do. *)
Definition hands_out {V} (k : code V) (e : list (bytes * bytes * V)) : Prop :=
  forall m s, rtc step (State k m (dom m) []) s -> handed e s.
