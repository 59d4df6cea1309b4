(** * Base: Python results as values, state monad, slices, strings.

    Nothing here belongs to /repo; these are the Python built-ins the modelled
    code relies on. *)
From Coq Require Export Ascii String Bool Arith ZArith Lia List.
Export ListNotations.
Open Scope list_scope.

(** Exceptions raised by the modelled code (class names only, no messages).
    [OutOfFuel] is an artefact of the model: it marks a loop that did not
    finish within the fuel given; theorems exclude it explicitly. *)
Inductive exn : Set :=
| StructError | ValueError | IndexError | KeyError | AttributeError
| UnicodeDecodeError | NameError | TypeError | NotImplementedError
| OverflowError | UnboundLocalError | AssertionError
| NodeError | NoSuchNodeError | FileNotFoundError
| NoSuchRecordError | ConditionError | HierarchyError | ResultError
| ClosedFileError | VtfError | VtkError | RuntimeError
| ZeroDivisionError | StopIteration | HDF5ExtError
| OutOfFuel.

Inductive Res (A : Type) : Type :=
| Ok (a : A)
| Err (e : exn).
Arguments Ok {A} a.
Arguments Err {A} e.

Definition rbind {A B} (r : Res A) (k : A -> Res B) : Res B :=
  match r with Ok a => k a | Err e => Err e end.

(** State + exception monad. *)
Definition StM (S A : Type) : Type := S -> Res (A * S).
Definition sret {S A} (a : A) : StM S A := fun s => Ok (a, s).
Definition sraise {S A} (e : exn) : StM S A := fun _ => Err e.
Definition sbind {S A B} (m : StM S A) (k : A -> StM S B) : StM S B :=
  fun s => match m s with Ok (a, s') => k a s' | Err e => Err e end.
Definition slift {S A} (r : Res A) : StM S A :=
  fun s => match r with Ok a => Ok (a, s) | Err e => Err e end.

Declare Scope monad_scope.
Delimit Scope monad_scope with monad.
Notation "'do' x <- m ; k" := (sbind m (fun x => k))
  (at level 200, x pattern, m at level 100, k at level 200, right associativity) : monad_scope.
Notation "'dos' m ; k" := (sbind m (fun _ => k))
  (at level 200, m at level 100, k at level 200, right associativity) : monad_scope.
Notation "'dor' x <- m ; k" := (rbind m (fun x => k))
  (at level 200, x pattern, m at level 100, k at level 200, right associativity) : monad_scope.

Fixpoint rmap {A B} (f : A -> Res B) (l : list A) : Res (list B) :=
  match l with
  | [] => Ok []
  | x :: r => match f x with
              | Ok y => match rmap f r with Ok ys => Ok (y :: ys) | Err e => Err e end
              | Err e => Err e
              end
  end.

(** ** Python indexing and slicing of sequences *)

Definition Zlen {A} (l : list A) : Z := Z.of_nat (length l).

(** [l[i]] for [i >= 0] constant indices used by the code. *)
Definition pyget {A} (l : list A) (i : nat) : Res A :=
  match nth_error l i with Some x => Ok x | None => Err IndexError end.

(** [l[i]] for an arbitrary integer index. *)
Definition pygetZ {A} (l : list A) (i : Z) : Res A :=
  let j := (if i <? 0 then Zlen l + i else i)%Z in
  if (j <? 0)%Z then Err IndexError else pyget l (Z.to_nat j).

(** Clamp a slice bound as CPython does. *)
Definition clamp (len i : Z) : Z :=
  (if i <? 0 then Z.max 0 (len + i) else Z.min i len)%Z.

Definition slice_from {A} (i : Z) (l : list A) : list A :=      (* l[i:] *)
  skipn (Z.to_nat (clamp (Zlen l) i)) l.
Definition slice_to {A} (j : Z) (l : list A) : list A :=        (* l[:j] *)
  firstn (Z.to_nat (clamp (Zlen l) j)) l.
Definition slice {A} (i j : Z) (l : list A) : list A :=         (* l[i:j] *)
  let i' := clamp (Zlen l) i in
  let j' := clamp (Zlen l) j in
  firstn (Z.to_nat (j' - i')) (skipn (Z.to_nat i') l).

(** Cut a list in pieces of [n] (last one possibly shorter); structural on a
    counter that the length bounds. *)
Fixpoint chunks_aux {A} (fuel n : nat) (l : list A) : list (list A) :=
  match fuel with
  | O => []
  | S k => match l with
           | [] => []
           | _ => firstn n l :: chunks_aux k n (skipn n l)
           end
  end.
Definition chunks {A} (n : nat) (l : list A) : list (list A) :=
  chunks_aux (length l) n l.

(** ** Characters *)

Definition code (c : ascii) : Z := Z.of_nat (nat_of_ascii c).
Definition chr (z : Z) : ascii := ascii_of_nat (Z.to_nat z).
Definition s2l := list_ascii_of_string.
Definition l2s := string_of_list_ascii.

Definition nl : ascii := "010"%char.
Definition blank : ascii := " "%char.
Definition blanks8 : list ascii := repeat blank 8.

Definition asc_eqb (a b : ascii) : bool := Ascii.eqb a b.
Fixpoint lascii_eqb (a b : list ascii) : bool :=
  match a, b with
  | [], [] => true
  | x :: a', y :: b' => Ascii.eqb x y && lascii_eqb a' b'
  | _, _ => false
  end.

(** bytes.strip(): ASCII whitespace (space, \t \n \v \f \r). *)
Definition is_space_b (c : ascii) : bool :=
  let z := code c in ((z =? 32) || ((9 <=? z) && (z <=? 13)))%Z.
(** str.strip() on ASCII text: the same plus \x1c..\x1f. *)
Definition is_space_s (c : ascii) : bool :=
  let z := code c in ((z =? 32) || ((9 <=? z) && (z <=? 13)) || ((28 <=? z) && (z <=? 31)))%Z.

Fixpoint dropwhile {A} (p : A -> bool) (l : list A) : list A :=
  match l with
  | [] => []
  | x :: r => if p x then dropwhile p r else l
  end.
Definition strip (p : ascii -> bool) (l : list ascii) : list ascii :=
  rev (dropwhile p (rev (dropwhile p l))).

Definition str_in (x : string) (l : list string) : bool := existsb (String.eqb x) l.

(** ** Dictionaries as association lists, last write first. *)
Fixpoint dget {K V} (eqb : K -> K -> bool) (k : K) (d : list (K * V)) : option V :=
  match d with
  | [] => None
  | (k', v) :: r => if eqb k k' then Some v else dget eqb k r
  end.
Definition dset {K V} (k : K) (v : V) (d : list (K * V)) : list (K * V) := (k, v) :: d.

Definition pairZ_eqb (a b : Z * Z) : bool := (Z.eqb (fst a) (fst b) && Z.eqb (snd a) (snd b))%bool.
Definition pairSZ_eqb (a b : string * Z) : bool := (String.eqb (fst a) (fst b) && Z.eqb (snd a) (snd b))%bool.

(** str(int) *)
Definition digit_char (d : Z) : ascii := chr (48 + d).
Fixpoint digits_aux (fuel : nat) (n : Z) (acc : list ascii) : list ascii :=
  match fuel with
  | O => acc
  | S k => let acc' := digit_char (n mod 10) :: acc in
           if (n <? 10)%Z then acc' else digits_aux k (n / 10) acc'
  end.
Definition str_of_Z (n : Z) : string :=
  l2s (if (n <? 0)%Z then "-"%char :: digits_aux (S (Z.to_nat (Z.log2 (- n)))) (- n) []
       else digits_aux (S (Z.to_nat (Z.log2 n))) n []).

Example str_of_Z_ex : str_of_Z 1050 = "1050"%string /\ str_of_Z 0 = "0"%string /\ str_of_Z (-7) = "-7"%string.
Proof. repeat split; reflexivity. Qed.
