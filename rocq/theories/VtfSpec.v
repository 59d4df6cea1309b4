(** * VtfSpec: a VTF file read back gives what was written *)
From Verif Require Import Base Flt RoundSpec NumeralSpec Vtf.
Open Scope string_scope.
Open Scope Z_scope.
Open Scope list_scope.

(** ** Numbers *)

(** [n] hundred thousandths are nearest to the absolute value of [v]. *)
Definition nearest5 (v : flt) (n : Z) : Prop :=
  match v with
  | FZero _ => n = 0
  | FFin _ m e => forall k, 0 <= k -> 0 <= e + k -> 2 * Z.abs (Zpos m * 10 ^ 5 * 2 ^ (e + k) - n * 2 ^ k) <= 2 ^ k
  | _ => False
  end.
(** A coordinate read: the decimal number of five decimals nearest to the one
    written, rounded to double precision. *)
Definition same_coord (v w : flt) : Prop := exists n, 0 <= n /\ nearest5 v n /\ rounded64 (dec_number n (-5)) (sign v) w.
(** A coordinate that leaves a blank in a column of twelve: between -9999 and
    99999. *)
Definition fits_column (v : flt) : Prop :=
  match v with
  | FZero _ => True
  | FFin s m e => forall k, 0 <= k -> 0 <= e + k -> Zpos m * 2 ^ (e + k) < (if s then 9999 else 99999) * 2 ^ k
  | _ => False
  end.
(** A value that the text shown determines, in single precision. *)
Definition determined (show : flt -> list ascii) (x : flt) : Prop :=
  Forall (fun c => is_space_s c = false) (show x) /\ exists w, reads (show x) w /\ round32 w = x.

(** Names in one line, without two blanks together. *)
Definition one_line (t : list ascii) : Prop :=
  (forall c, In c t -> is_space_s c = true -> c = " "%char) /\ forall a b, t <> a ++ " "%char :: " "%char :: b.

(** ** What can be written *)

(** The types of elements, with their number of nodes. *)
Definition vtf_types : list (string * nat) :=
  [("%BEAMS", 2); ("%BEAMS_3", 3); ("%TRIANGLES", 3); ("%TRIANGLES_6", 6); ("%QUADS", 4); ("%QUADS_8", 8)]%nat.
Definition good_nodes (b : option Z * nodes) : Prop :=
  (exists k, 0 <= k /\ fst b = Some k) /\
  Forall (fun c => length c = 3%nat /\ Forall fits_column c) (n_arr (snd b)) /\
  match n_ids (snd b) with
  | Some ids => length ids = length (n_arr (snd b)) /\ Forall (fun i => 0 <= i < 10 ^ 7) ids
  | None => True
  end.
(** Elements of each type: at least one, rows of one length, numbers of at most nine
    digits; numbers of elements (if any) for the same types in the same order. *)
Definition good_type (p : string * list (list Z)) : Prop :=
  In (fst p) (map fst vtf_types) /\ snd p <> [] /\
  exists n, (0 < n)%nat /\ Forall (fun r => length r = n /\ Forall (fun i => 0 <= i < 10 ^ 9) r) (snd p).
Definition good_ids (d : list (string * list (list Z))) (i : list (string * list Z)) : Prop :=
  i <> [] /\ Forall2 (fun p q => fst p = fst q /\ length (snd p) = length (snd q) /\ Forall (fun z => 0 <= z < 10 ^ 9) (snd p)) i d.
Definition good_elements (b : Z * elements) : Prop :=
  let e := snd b in
  0 <= fst b /\ one_line (e_name e) /\ one_line (e_descr e) /\ 0 <= e_nodes e /\
  NoDup (map fst (e_dict e)) /\ Forall good_type (e_dict e) /\
  match e_ids e with Some i => good_ids (e_dict e) i | None => True end.
(** Results at the nodes of the elements of the first types of a block, one row for
    each element, one value for each node. *)
Definition good_results (show : flt -> list ascii) (elems : list (Z * elements)) (b : Z * results) : Prop :=
  let r := snd b in
  0 <= fst b /\ r_type r = "PER_ELEMENT_NODE" /\ 0 <= r_dim r /\ 0 <= r_elems r /\ r_dict r <> [] /\
  exists e first rest, In (r_elems r, e) elems /\ e_dict e = first ++ rest /\
    Forall2 (fun p q => fst p = fst q /\ length (snd p) = length (snd q) /\
      exists n, In (fst p, n) vtf_types /\ Forall (fun row => length row = n /\ Forall (determined show) row) (snd p)) (r_dict r) first.
Definition good_scalar (v : vtf) (b : Z * scalar) : Prop :=
  0 <= fst b /\ one_line (s_name (snd b)) /\ one_line (s_descr (snd b)) /\ exists i, 0 <= i /\ shared v (s_ids (snd b)) = [i].

Record good (show : flt -> list ascii) (v : vtf) : Prop := mkGood {
  g_geom : 0 <= v_geom v;
  g_name : one_line (v_name v);
  g_descr : one_line (v_descr v);
  g_nodes : NoDup (map fst (v_nodes v)) /\ Forall good_nodes (v_nodes v);
  g_elems : v_elems v <> [] /\ NoDup (map fst (v_elems v)) /\ Forall good_elements (v_elems v);
  (** an elements block knows its results, which are for the same types *)
  g_refs : Forall (fun b => e_res (snd b) = map fst (filter (fun r => r_elems (snd r) =? fst b) (v_results v))) (v_elems v);
  g_types : forall r s, In r (v_results v) -> In s (v_results v) -> r_elems (snd r) = r_elems (snd s) -> map fst (r_dict (snd r)) = map fst (r_dict (snd s));
  g_results : NoDup (map fst (v_results v)) /\ Forall (good_results show (v_elems v)) (v_results v);
  g_scalars : NoDup (map fst (v_scalars v)) /\ Forall (good_scalar v) (v_scalars v);
  (** the last results are lost if no scalar follows *)
  g_last : v_results v <> [] -> v_scalars v <> []
}.

(** ** What must be read *)
Record same (v w : vtf) : Prop := mkSame {
  same_geom : v_geom w = v_geom v;
  same_names : v_name w = v_name v /\ v_descr w = v_descr v;
  same_nodes : Forall2 (fun a b => fst a = fst b /\ n_ids (snd a) = n_ids (snd b) /\ Forall2 (Forall2 same_coord) (n_arr (snd a)) (n_arr (snd b))) (v_nodes v) (v_nodes w);
  same_elems : v_elems w = v_elems v;
  same_results : v_results w = v_results v;
  same_scalars : Forall2 (fun a b => fst a = fst b /\ s_name (snd a) = s_name (snd b) /\ s_descr (snd a) = s_descr (snd b) /\
    shared v (s_ids (snd a)) = shared w (s_ids (snd b))) (v_scalars v) (v_scalars w)
}.
