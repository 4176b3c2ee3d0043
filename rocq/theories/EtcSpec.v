(** * Specification of etc: names of files, selection of data, execution of a catalog. Independent
    of the functions of the model. *)
From Verif Require Import Prog EtcModel.
Open Scope nat_scope.

Fixpoint joined (c : Byte.byte) (l : list bytes) : bytes :=
  match l with [] => [] | [p] => p | p :: ps => p ++ c :: joined c ps end.
(** [s] consists of the pieces [l], separated by [c]. *)
Definition pieces (c : Byte.byte) (s : bytes) (l : list bytes) : Prop :=
  l <> [] /\ Forall (fun p => c ∉ p) l /\ s = joined c l.

(** ** Paths *)
Definition here : bytes := [dot].
Definition up : bytes := [dot; dot].
(** Lexical simplification of a list of names, below the root or not. *)
Inductive simpler (r : bool) : list bytes -> list bytes -> Prop :=
| simpler_empty a b : simpler r (a ++ [] :: b) (a ++ b)
| simpler_here a b : simpler r (a ++ here :: b) (a ++ b)
| simpler_up a x b : x <> [] -> x <> here -> x <> up -> simpler r (a ++ x :: up :: b) (a ++ b)
| simpler_root b : r = true -> simpler r (up :: b) b.
(** The path [p] names [l]: from the root or from the working directory, without anything left to simplify. *)
Definition names (p : bytes) (r : bool) (l : list bytes) : Prop :=
  (r = true <-> exists p', p = slash :: p') /\
  exists l0, pieces slash p l0 /\ rtc (simpler r) l0 l /\ forall l', ~ simpler r l l'.
(** As a list of strings, with an own element for the root or the working directory itself. *)
Definition listed (r : bool) (l : list bytes) : list bytes :=
  if r then [slash] :: l else match l with [] => [here] | _ => l end.
(** The names from the root of what [p] denotes in the working directory [cwd]. *)
Definition abs_names (cwd p : bytes) (l : list bytes) : Prop :=
  match p with x :: _ => if Byte.eqb x slash then names p true l else names (cwd ++ slash :: p) true l | [] => names cwd true l end.
(** Names that directory entries can have. *)
Definition proper (n : bytes) : Prop := n <> [] /\ n <> here /\ n <> up /\ slash ∉ n.
Definition abs_path (l : list bytes) : bytes := slash :: joined slash l.

(** ** Data *)
(** The value reached from [y] by the names [l] through maps. *)
Inductive reached : yaml -> list bytes -> yaml -> Prop :=
| reached_here y : reached y [] y
| reached_in m n v l y : m (KStr n) = Some v -> reached v l y -> reached (YMap m) (n :: l) y.
Definition is_map (y : yaml) : Prop := match y with YMap _ => True | YLeaf _ => False end.
(** What a selector asks for: its names; if it is empty or ends with a dot, only a map will do. *)
Definition wanted (s : bytes) (l : list bytes) (map_only : Prop) : Prop :=
  exists ps x, pieces dot s (ps ++ [x]) /\ ((x = [] /\ l = ps /\ map_only = True) \/ (x <> [] /\ l = ps ++ [x] /\ map_only = False)).

(** ** Execution *)
(** The entries of a catalog, parents first, with their names from the root. *)
Fixpoint catalog (l : list bytes) (e : entry) : list (list bytes * entry) :=
  (l, e) :: match e with
  | FFile _ => []
  | FDir items => (fix go items := match items with [] => [] | (n, e) :: items => catalog (l ++ [n]) e ++ go items end) items
  end.
Fixpoint proper_entry (e : entry) : Prop :=
  match e with
  | FFile _ => True
  | FDir items => (fix go items := match items with [] => True | (n, e) :: items => proper n /\ proper_entry e /\ go items end) items
  end.
Section run.
Variable tpl : bytes -> option bytes.
Variable tpl_file : bytes -> option (bytes * bool).
(** What is done for one entry and whether the program goes on. *)
Inductive done_for (l : list bytes) (e : entry) : list action -> bool -> Prop :=
| done_bad : tpl (abs_path l) = None -> done_for l e [] false
| done_same : tpl (abs_path l) = Some (abs_path l) -> done_for l e [] false
| done_dir new items : e = FDir items -> tpl (abs_path l) = Some new -> new <> abs_path l -> done_for l e [AMkdirAll new] true
| done_unread new c : e = FFile c -> tpl (abs_path l) = Some new -> new <> abs_path l -> tpl_file c = None -> done_for l e [] false
| done_file new c text ok : e = FFile c -> tpl (abs_path l) = Some new -> new <> abs_path l -> tpl_file c = Some (text, ok) ->
    done_for l e [ACreate new text] ok.
(** The action [x] is for an entry of [es]: the name is the entry's with the template executed. *)
Definition stems_from (es : list (list bytes * entry)) (x : action) : Prop :=
  exists l e, (l, e) ∈ es /\ match x with
  | AMkdirAll n => (exists items, e = FDir items) /\ tpl (abs_path l) = Some n /\ n <> abs_path l
  | ACreate n text => (exists c b, e = FFile c /\ tpl_file c = Some (text, b)) /\ tpl (abs_path l) = Some n /\ n <> abs_path l
  end.
(** One entry after the other until one stops the program. *)
Inductive done_all : list (list bytes * entry) -> list action -> bool -> Prop :=
| done_none : done_all [] [] true
| done_stop l e es a : done_for l e a false -> done_all ((l, e) :: es) a false
| done_next l e es a a' ok : done_for l e a true -> done_all es a' ok -> done_all ((l, e) :: es) (a ++ a') ok.
End run.
