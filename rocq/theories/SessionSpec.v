(** * SessionSpec: what is expected of calls made one after the other *)
From Verif Require Import Base H5 Parsers Files Convert Session.
Open Scope string_scope.
Open Scope list_scope.

(** The call with that result gave the program an open file of number [id]. *)
Definition gives_id (r : Res given_back) (id : nat) : Prop :=
  (exists es, r = Ok (GFile id es)) \/ (exists k o, r = Ok (GData id k o)).
(** [id] is one of those given and not closed later. *)
Definition in_use (cs : list scall) (rs : list (Res given_back)) (id : nat) : Prop :=
  exists i r, nth_error rs i = Some r /\ gives_id r id /\ forall j, (i < j)%nat -> nth_error cs j <> Some (CClose id).
(** No call closes it. *)
Definition leaves_open (id : nat) (c : scall) : Prop := c <> CClose id /\ forall n, c <> CCloseAll n.
Definition raised (r : Res given_back) : Prop := exists e, r = Err e.
(** Names within a path. *)
Definition plain_part (n : string) : Prop := n <> "" /\ n <> "." /\ n <> ".." /\ ~ In "/"%char (s2l n).
Definition plain_path (p : place_of) : Prop := Forall plain_part p.

(** ** Paths as text *)
Fixpoint between (sep : list ascii) (l : list (list ascii)) : list ascii :=
  match l with [] => [] | [x] => x | x :: r => x ++ sep ++ between sep r end.
(** Going from one place to another by the names of a path. *)
Inductive walk : place_of -> list string -> place_of -> Prop :=
| walk_end p : walk p [] p
| walk_stay p n ns q : n = "" \/ n = "." -> walk p ns q -> walk p (n :: ns) q
| walk_up p x ns q : walk p ns q -> walk (p ++ [x]) (".." :: ns) q
| walk_top ns q : walk [] ns q -> walk [] (".." :: ns) q
| walk_down p n ns q : plain_part n -> walk (p ++ [n]) ns q -> walk p (n :: ns) q.
(** The place a path leads to from a directory. *)
Definition leads (cwd : place_of) (path : string) (q : place_of) : Prop :=
  exists ns, ns <> [] /\ Forall (fun n => ~ In "/"%char (s2l n)) ns /\ s2l path = between ["/"%char] (map s2l ns) /\
    ((exists r, ns = "" :: r /\ r <> [] /\ walk [] ns q) \/ ((hd "" ns <> "" \/ tl ns = []) /\ walk cwd ns q)).
(** What is at a place; a place reached through links. *)
Definition is_at (fs : files) (p : place_of) (v : node_at) : Prop := exists a b, fs = a ++ (p, v) :: b /\ ~ In p (map fst a).
Inductive links_to (fs : files) : place_of -> place_of -> Prop :=
| links_here p : (forall t, ~ is_at fs p (Link t)) -> links_to fs p p
| links_on p t q r : is_at fs p (Link t) -> leads (removelast p) t q -> links_to fs q r -> links_to fs p r.
