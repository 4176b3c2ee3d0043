(** * Specification: which versions of an iptree an in-place insertion reaches.
    Independent of the model. *)
From Verif Require Import Prog NumSpec NumNavSpec IpModel IpSpec IpVersSpec StampSpec.
Open Scope N_scope.

Section spec.
Context {U : Type}.
Local Notation value := (value U).
Local Notation nmap := (gmap pfx (N * value)).
Local Notation ver := (ver U).
Local Notation ver0 := (ver0 U).

(** ** What is stored, as in StampSpec.v; the first component of an entry is not used here. *)
Definition put (m : nmap) (q : pfx) (v : value) : nmap := <[q := (0, v)]> m.
Definition cut (m : nmap) (q : pfx) : nmap := filter (fun x => ~ covers q x.1) m.
Definition grown (n : nat) (g : ver) (q : pfx) (v : value) : ver :=
  Ver (put (content g) q v) (fun X => if decide (branching (content g) X) then since g X else n).

(** A version: the call that made the *Tree (None: it is nil); the parts for IPv4 networks;
    those for IPv6 networks shorter than /64 and for each /64 in which something is stored;
    those inside each /64, which is given by its upper half. *)
Record iver := IVer { obj : option nat; four : ver; upper : ver; inside : N -> ver }.
Definition iver0 : iver := IVer None ver0 ver0 (fun _ => ver0).
(** The /64 in which the prefix [q] is, and its place there. *)
Definition half (q : pfx) : N := q.2 / 2 ^ (q.1 - 64).
Definition rest (q : pfx) : pfx := (q.1 - 64, q.2 mod 2 ^ (q.1 - 64)).
Definition holds (g : iver) (p : net) : option value :=
  snd <$> (if p.1 then if p.2.1 <? 64 then content (upper g) !! p.2 else content (inside g (half p.2)) !! rest p.2
           else content (four g) !! p.2).
Definition at_half (f : N -> ver) (x : N) (g : ver) : N -> ver := fun y => if decide (y = x) then g else f y.

(** The version that InsertNet or InsertIP makes in call number [n]. *)
Definition inserted (n : nat) (g : iver) (p : net) (v : value) : iver :=
  let q := p.2 in
  if p.1 then
    if q.1 <? 64 then IVer (Some n) (four g) (remade n (upper g) q (put (content (upper g)) q v)) (inside g)
    else let x := half q in
         IVer (Some n) (four g) (remade n (upper g) (64, x) (put (content (upper g)) (64, x) VNil))
           (at_half (inside g) x (remade n (inside g x) (rest q) (put (content (inside g x)) (rest q) v)))
  else IVer (Some n) (remade n (four g) q (put (content (four g)) q v)) (upper g) (inside g).
(** The version that DeleteByNet or DeleteByIP makes if something is deleted. *)
Definition deleted (n : nat) (g : iver) (p : net) : iver :=
  let q := p.2 in
  if p.1 then
    if q.1 <? 64 then IVer (Some n) (four g) (remade n (upper g) q (cut (content (upper g)) q))
                        (fun y => if decide (covers q (64, y)) then ver0 else inside g y)
    else let x := half q in let m := cut (content (inside g x)) (rest q) in
         IVer (Some n) (four g)
           (remade n (upper g) (64, x) (if decide (m = ∅) then cut (content (upper g)) (64, x) else content (upper g)))
           (at_half (inside g) x (remade n (inside g x) (rest q) m))
  else IVer (Some n) (remade n (four g) q (cut (content (four g)) q)) (upper g) (inside g).
(** What in-place insertion makes of a version it reaches. *)
Definition affected (n : nat) (g : iver) (p : net) (v : value) : iver :=
  let q := p.2 in
  if p.1 then
    if q.1 <? 64 then IVer (obj g) (four g) (grown n (upper g) q v) (inside g)
    else let x := half q in
         IVer (obj g) (four g) (grown n (upper g) (64, x) VNil) (at_half (inside g) x (grown n (inside g x) (rest q) v))
  else IVer (obj g) (grown n (four g) q v) (upper g) (inside g).
(** The versions reached by in-place insertion of [p] into [g1]: the same *Tree; those that
    have the part around [p] from the same call; inside a /64 also those that have the /64
    itself from the same call. *)
Definition reached (g1 g2 : iver) (p : net) : Prop :=
  obj g2 = obj g1 \/
  if p.1 then if p.2.1 <? 64 then sharing (upper g1) (upper g2) p.2
              else sharing (upper g1) (upper g2) (64, half p.2) \/ sharing (inside g1 (half p.2)) (inside g2 (half p.2)) (rest p.2)
  else sharing (four g1) (four g2) p.2.

(** ** Answers, as in IpSpec.v. *)
Definition closest (G : net -> option value) (q : net) (res : option value) : Prop :=
  match res with
  | Some v => exists p, G p = Some v /\ ncovers p q /\ forall p' v', G p' = Some v' -> ncovers p' q -> p'.2.1 <= p.2.1
  | None => forall p v, G p = Some v -> ~ ncovers p q
  end.
Definition lists (G : net -> option value) (e : list (bytes * bytes * value)) : Prop :=
  exists ps : list (net * value),
    StronglySorted (fun x y => net_lt x.1 y.1) ps /\
    (forall p v, (p, v) ∈ ps <-> G p = Some v) /\
    Forall2 (fun x y => x.2 = y.2 /\ canonical x.1.1 x.1.2 y.1) e ps.

(** Call number [n]. A version that does not exist is nil. *)
Inductive istep (n : nat) (gs : list iver) : wop value -> list iver -> iout value -> Prop :=
| is_new : istep n gs (WCall (IBuild [])) (gs ++ [IVer (Some n) ver0 ver0 (fun _ => ver0)]) IONone
| is_insert i k v p : ikey_is k (Some p) ->
    istep n gs (WCall (IInsert i k v)) (gs ++ [inserted n (nth i gs iver0) p v]) IONone
| is_insert_not i k v : ikey_is k None ->
    istep n gs (WCall (IInsert i k v)) (gs ++ [nth i gs iver0]) IONone
| is_delete i k p : ikey_is k (Some p) -> (exists q v, ncovers p q /\ holds (nth i gs iver0) q = Some v) ->
    istep n gs (WCall (IDelete i k)) (gs ++ [deleted n (nth i gs iver0) p]) (IOBool true)
| is_delete_not i k r : ikey_is k r -> (forall p q v, r = Some p -> ncovers p q -> holds (nth i gs iver0) q <> Some v) ->
    istep n gs (WCall (IDelete i k)) (gs ++ [nth i gs iver0]) (IOBool false)
| is_get i k p res : ikey_is k (Some p) -> closest (holds (nth i gs iver0)) p res ->
    istep n gs (WCall (IGet i k)) gs (IOVal res)
| is_get_not i k : ikey_is k None -> istep n gs (WCall (IGet i k)) gs (IOVal None)
| is_enumerate i e : lists (holds (nth i gs iver0)) e -> istep n gs (WCall (IEnumerate i)) gs (IOList e)
| is_inplace i k v p gs' : ikey_is k (Some p) -> obj (nth i gs iver0) <> None ->
    Forall2 (fun g g' => (reached (nth i gs iver0) g p -> g' = affected n g p v) /\ (~ reached (nth i gs iver0) g p -> g' = g)) gs gs' ->
    istep n gs (WInplace i k v) gs' IONone
| is_inplace_not i k v : ikey_is k None \/ obj (nth i gs iver0) = None -> istep n gs (WInplace i k v) gs IONone.

(** A history; the calls are numbered from [n]. *)
Fixpoint irun (n : nat) (ops : list (wop value)) (gs gs' : list iver) (outs : list (iout value)) : Prop :=
  match ops, outs with
  | [], [] => gs' = gs
  | o :: ops, x :: outs => exists gs1, istep n gs o gs1 x /\ irun (S n) ops gs1 gs' outs
  | _, _ => False
  end.

(** A client makes trees with NewTree alone and fills them call by call. *)
Definition single (o : wop value) : Prop := match o with WCall (IBuild items) => items = [] | _ => True end.
End spec.
Global Arguments iver : clear implicits.
Global Arguments iver0 : clear implicits.
