(** * Model of package domaintree (domaintree/domaintree.go). *)
From Verif Require Import Prog RbModel DomModel DlModel.

Section model.
Context {U : Type}.
Local Notation prog := (prog U).
Local Notation value := (value U).
(** Fuel for the calls of dltree (and, in [dt_node_enumerate], for its recursion). *)
Variable fuel : nat.

(** [n.branches = b], [n.hasValue = b], [n.value = v] *)
Definition set_branches (n b : ptr) : prog unit :=
  nn <- ld_dom n ;; st_dom n (DomN b (dn_has nn) (dn_val nn)).
Definition set_has (n : ptr) (b : bool) : prog unit :=
  nn <- ld_dom n ;; st_dom n (DomN (dn_branches nn) b (dn_val nn)).
Definition set_dval (n : ptr) (v : value) : prog unit :=
  nn <- ld_dom n ;; st_dom n (DomN (dn_branches nn) (dn_has nn) v).
(** [new(Node)] *)
Definition dt_new : prog ptr := a <- alloc (CDom (DomN None false VNil)) ;; Ret (Some a).
(** [&Node{branches: b}] *)
Definition dt_node (b : ptr) : prog ptr := a <- alloc (CDom (DomN b false VNil)) ;; Ret (Some a).
(** [item.( *Node)]: panics on anything else. *)
Definition as_node (v : value) : prog ptr := match v with VDom p => Ret p | _ => Fail EType end.

(** domaintree/domaintree.go:183-193 copy *)
Definition dt_copy (n : ptr) : prog ptr :=
  match n with
  | None => dt_new
  | Some _ => nn <- ld_dom n ;; a <- alloc (CDom nn) ;; Ret (Some a)
  end.

(** domaintree/domaintree.go:34-47: the callback of Insert. Its state is [n]; the
    boolean tells GetLabels to go on (the callback returned nil). *)
Definition dt_insert_step (n : ptr) (label : bytes) : prog (ptr * bool) :=
  nn <- ld_dom n ;;
  x <- dl_raw_get fuel (dn_branches nn) label ;;            (* 35 *)
  next <- (if x.2 then p <- as_node x.1 ;; dt_copy p        (* 37-38 *)
           else dt_new) ;;                                  (* 40 *)
  nn <- ld_dom n ;;
  b <- dl_raw_insert fuel (dn_branches nn) label (VDom next) ;;  (* 43 *)
  set_branches n b ;;;
  Ret (next, true).
(** domaintree/domaintree.go:30-53 Insert *)
Definition dt_insert (n : ptr) (d : name) (v : value) : prog ptr :=
  n <- dt_copy n ;;
  let r := n in
  x <- get_labels dt_insert_step d n ;;
  set_has x.1 true ;;;
  set_dval x.1 v ;;;
  Ret r.

(** domaintree/domaintree.go:61-72: the callback of InplaceInsert. *)
Definition dt_inplace_step (n : ptr) (label : bytes) : prog (ptr * bool) :=
  nn <- ld_dom n ;;
  x <- dl_raw_get fuel (dn_branches nn) label ;;            (* 62 *)
  if x.2 then p <- as_node x.1 ;; Ret (p, true)             (* 63-64 *)
  else
    b <- dl_new ;;
    next <- dt_node b ;;                                    (* 66 *)
    nn <- ld_dom n ;;
    dl_raw_inplace_insert fuel (dn_branches nn) label (VDom next) ;;;  (* 67 *)
    Ret (next, true).
(** domaintree/domaintree.go:56-76 InplaceInsert *)
Definition dt_inplace_insert (n : ptr) (d : name) (v : value) : prog unit :=
  nn <- ld_dom n ;;
  match dn_branches nn with                                 (* 57-59 *)
  | None => b <- dl_new ;; set_branches n b
  | Some _ => Ret tt
  end ;;;
  x <- get_labels dt_inplace_step d n ;;
  set_has x.1 true ;;;
  set_dval x.1 v.

(** domaintree/domaintree.go:99-111: the callback of Get. Its state is [n], [value], [hasValue]. *)
Definition dt_get_step (st : ptr * (value * bool)) (label : bytes) : prog (ptr * (value * bool) * bool) :=
  nn <- ld_dom st.1 ;;
  x <- dl_raw_get fuel (dn_branches nn) label ;;            (* 100 *)
  if x.2 then
    n <- as_node x.1 ;;                                     (* 105 *)
    nn <- ld_dom n ;;
    if dn_has nn then Ret ((n, (dn_val nn, true)), true)    (* 106-109 *)
    else Ret ((n, st.2), true)
  else Ret (st, false).                                     (* 102 *)
(** domaintree/domaintree.go:91-114 Get *)
Definition dt_get (n : ptr) (d : name) : prog (value * bool) :=
  match n with
  | None => Ret (VNil, false)
  | Some _ => x <- get_labels dt_get_step d (n, (VNil, false)) ;; Ret x.1.2
  end.

(** Arrays: [a[i] = x] and [a[i]] with a signed index. *)
Definition arr_set {A} (a : list A) (i : Z) (x : A) : prog (list A) :=
  if ((0 <=? i) && (i <? Z.of_nat (length a)))%Z then Ret (<[Z.to_nat i := x]> a) else Fail EIndex.
Definition arr_get {A} (a : list A) (i : Z) : prog A :=
  if (0 <=? i)%Z then match nth_error a (Z.to_nat i) with Some x => Ret x | None => Fail EIndex end else Fail EIndex.
(** domain.MaxLabels (domain/name.go:33) *)
Definition max_labels : nat := 127.
(** domaintree/domaintree.go:122-125, 150-153 *)
Definition no_labels : list bytes := repeat [] max_labels.
Definition no_nodes : list ptr := repeat None max_labels.

(** domaintree/domaintree.go:221-234: the callback of getBranch. Its state is
    [n], [i], [labels], [nodes]. *)
Definition dt_branch : Type := ptr * Z * list bytes * list ptr.
Definition dt_branch_step (st : dt_branch) (label : bytes) : prog (dt_branch * bool) :=
  let '(n, i, labels, nodes) := st in
  labels <- arr_set labels i label ;;                       (* 222 *)
  nn <- ld_dom n ;;
  x <- dl_raw_get fuel (dn_branches nn) label ;;            (* 224 *)
  if x.2 then
    n <- as_node x.1 ;;                                     (* 229 *)
    let i := (i - 1)%Z in                                   (* 231 *)
    nodes <- arr_set nodes i n ;;                           (* 232 *)
    Ret ((n, i, labels, nodes), true)
  else Ret ((n, i, labels, nodes), false).                  (* 226 *)
(** domaintree/domaintree.go:217-239 getBranch; the arrays are part of the result. *)
Definition dt_get_branch (n : ptr) (d : name) (labels : list bytes) (nodes : list ptr) : prog (Z * list bytes * list ptr) :=
  let i := (Z.of_nat (length labels) - 1)%Z in              (* 218 *)
  nodes <- arr_set nodes i n ;;                             (* 219 *)
  x <- get_labels dt_branch_step d (n, i, labels, nodes) ;;
  let '(n, i, labels, nodes) := x.1 in
  Ret (if x.2 then i else Z.of_nat (length labels), labels, nodes).  (* 234-238 *)

(** domaintree/domaintree.go:241-254 copyBranch; the loop over [nodes] goes along [labels]. *)
Fixpoint dt_copy_branch (n : ptr) (labels : list bytes) (nodes : list ptr) : prog ptr :=
  match nodes with
  | [] => Ret n
  | p :: nodes =>
    p <- dt_copy p ;;                                       (* 243 *)
    nn <- ld_dom n ;;                                       (* 244 *)
    dead <- (if dn_has nn then Ret false else dl_is_empty (dn_branches nn)) ;;
    match labels with
    | [] => Fail EIndex
    | label :: labels =>
      pn <- ld_dom p ;;
      (if dead then
         x <- dl_raw_delete fuel (dn_branches pn) label ;; set_branches p x.1     (* 245 *)
       else
         b <- dl_raw_insert fuel (dn_branches pn) label (VDom n) ;; set_branches p b) ;;;  (* 247 *)
      dt_copy_branch p labels nodes                         (* 250 *)
    end
  end.

(** domaintree/domaintree.go:117-142 DeleteSubdomains *)
Definition dt_delete_subdomains (n : ptr) (d : name) : prog (ptr * bool) :=
  match n with
  | None => Ret (None, false)
  | Some _ =>
    x <- dt_get_branch n d no_labels no_nodes ;;            (* 127 *)
    let '(i, labels, nodes) := x in
    stop <- (if (Z.of_nat (length nodes) <=? i)%Z then Ret true
             else
               ni <- arr_get nodes i ;;
               nin <- ld_dom ni ;;
               if dn_has nin then Ret false
               else nn <- ld_dom n ;; dl_is_empty (dn_branches nn)) ;;    (* 128 *)
    if stop then Ret (n, false)                             (* 129 *)
    else
      let i := (i + 1)%Z in                                 (* 132 *)
      if (Z.of_nat (length nodes) <=? i)%Z then
        r <- dt_new ;; Ret (r, true)                        (* 134 *)
      else
        ni <- arr_get nodes i ;;
        n <- dt_copy ni ;;                                  (* 137 *)
        nn <- ld_dom n ;;
        l <- arr_get labels i ;;
        x <- dl_raw_delete fuel (dn_branches nn) l ;;       (* 138 *)
        set_branches n x.1 ;;;
        let i := Z.to_nat (i + 1) in                        (* 139 *)
        r <- dt_copy_branch n (drop i labels) (drop i nodes) ;; Ret (r, true)  (* 141 *)
  end.

(** domaintree/domaintree.go:145-181 Delete *)
Definition dt_delete (n : ptr) (d : name) : prog (ptr * bool) :=
  match n with
  | None => Ret (None, false)
  | Some _ =>
    x <- dt_get_branch n d no_labels no_nodes ;;            (* 155 *)
    let '(i, labels, nodes) := x in
    stop <- (if (Z.of_nat (length nodes) <=? i)%Z then Ret true
             else ni <- arr_get nodes i ;; nin <- ld_dom ni ;; Ret (negb (dn_has nin))) ;;  (* 156 *)
    if stop then Ret (n, false)                             (* 157 *)
    else
      n <- arr_get nodes i ;;                               (* 160 *)
      let i := (i + 1)%Z in                                 (* 161 *)
      nn <- ld_dom n ;;
      let branches := dn_branches nn in                     (* 163 *)
      empty <- dl_is_empty branches ;;                      (* 165, 173 *)
      if (Z.of_nat (length nodes) <=? i)%Z then
        if (empty : bool) then r <- dt_new ;; Ret (r, true) (* 166 *)
        else r <- dt_node branches ;; Ret (r, true)         (* 169 *)
      else
        ni <- arr_get nodes i ;;
        n <- dt_copy ni ;;                                  (* 172 *)
        l <- arr_get labels i ;;
        nn <- ld_dom n ;;
        (if (empty : bool) then
           x <- dl_raw_delete fuel (dn_branches nn) l ;; set_branches n x.1       (* 174 *)
         else
           m <- dt_node branches ;;
           b <- dl_raw_insert fuel (dn_branches nn) l (VDom m) ;; set_branches n b) ;;;  (* 176 *)
        let i := Z.to_nat (i + 1) in                        (* 178 *)
        r <- dt_copy_branch n (drop i labels) (drop i nodes) ;; Ret (r, true)  (* 180 *)
  end.

(** domaintree/domaintree.go:195-215 enumerate: the pairs sent to the channel. The
    pairs of [n.branches.Enumerate()] are collected before the loop over them; in
    the code the two goroutines alternate. *)
Section loop.
Variable rec : bytes -> ptr -> prog (list (bytes * value)).
Fixpoint dt_enumerate_loop (s : bytes) (items : list (bytes * value)) : prog (list (bytes * value)) :=
  match items with
  | [] => Ret []
  | (key, v) :: items =>
    let sub := match s with [] => key | _ => key ++ dot :: s end in   (* 207-210 *)
    node <- as_node v ;;                                    (* 211 *)
    l <- rec sub node ;;                                    (* 213 *)
    r <- dt_enumerate_loop s items ;;
    Ret (l ++ r)
  end.
End loop.
Fixpoint dt_node_enumerate (depth : nat) (s : bytes) (n : ptr) : prog (list (bytes * value)) :=
  match n with
  | None => Ret []
  | Some _ =>
    match depth with
    | O => Fail EFuel
    | S depth =>
      nn <- ld_dom n ;;
      items <- dl_enumerate fuel (dn_branches nn) ;;        (* 206 *)
      l <- dt_enumerate_loop (dt_node_enumerate depth) s items ;;
      Ret ((if dn_has nn then [(s, dn_val nn)] else []) ++ l)  (* 200-204 *)
    end
  end.
(** domaintree/domaintree.go:79-88 Enumerate *)
Definition dt_enumerate (n : ptr) : prog (list (bytes * value)) := dt_node_enumerate fuel [] n.
End model.
