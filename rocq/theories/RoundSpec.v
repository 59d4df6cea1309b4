(** * RoundSpec: nearest numbers of a binary format *)
From Verif Require Import Base Flt.
Open Scope Z_scope.

(** The non-negative number [num / den * 2 ^ ex]. *)
Record number : Set := mkNum { x_num : Z; x_den : Z; x_exp : Z }.
(** Distance of [x] to [n * 2 ^ q], in units of [2 ^ (- k) / den]. *)
Definition gap (k : Z) (x : number) (n q : Z) : Z := Z.abs (x_num x * 2 ^ (x_exp x + k) - n * x_den x * 2 ^ (q + k)).
Definition units (k : Z) (x : number) (q q2 : Z) : Prop := 0 <= x_exp x + k /\ 0 <= q + k /\ 0 <= q2 + k.
(** [n * 2 ^ q] is a number of [prec] digits, the last of which counts at least
    [2 ^ emin]. *)
Definition fits (prec emin n q : Z) : Prop := Z.abs n <= 2 ^ prec /\ emin <= q.
(** It is the nearest to [x]; if another is as near, the even one of both. *)
Definition nearest (prec emin : Z) (x : number) (n q : Z) : Prop :=
  fits prec emin n q /\
  forall n2 q2 k, fits prec emin n2 q2 -> units k x q q2 ->
    gap k x n q <= gap k x n2 q2 /\
    (gap k x n q = gap k x n2 q2 -> n * 2 ^ (q + k) = n2 * 2 ^ (q2 + k) \/
       Z.even n = true /\ (n2 * 2 ^ (q2 + k) = (n + 1) * 2 ^ (q + k) \/ n2 * 2 ^ (q2 + k) = (n - 1) * 2 ^ (q + k))).

(** A float that is [n * 2 ^ q] with sign [s]; one sign for each zero. *)
Definition is_dyadic (f : flt) (s : bool) (n q : Z) : Prop :=
  (n = 0 /\ f = FZero s) \/ exists m e, f = FFin s m e /\ Z.odd (Zpos m) = true /\ q <= e /\ n = Zpos m * 2 ^ (e - q).
(** [x] with sign [s] rounded: infinite if the nearest reaches [2 ^ emax]. *)
Definition rounded (prec emin emax : Z) (x : number) (s : bool) (f : flt) : Prop :=
  exists n q, 0 <= n /\ nearest prec emin x n q /\
    ((is_dyadic f s n q /\ forall k, 0 <= q + k -> 0 <= emax + k -> n * 2 ^ (q + k) < 2 ^ (emax + k)) \/
     (f = FInf s /\ forall k, 0 <= q + k -> 0 <= emax + k -> 2 ^ (emax + k) <= n * 2 ^ (q + k))).
Definition rounded64 := rounded 53 (-1074) 1024.
Definition rounded32 := rounded 24 (-149) 128.
(** The absolute value of a float. *)
Definition magnitude (f : flt) (x : number) : Prop :=
  match f with
  | FZero _ => x = mkNum 0 1 0
  | FFin _ m e => x = mkNum (Zpos m) 1 e
  | _ => False
  end.
Definition sign (f : flt) : bool := match f with FNan => false | FInf s | FZero s | FFin s _ _ => s end.
(** The decimal number [m * 10 ^ x]. *)
Definition dec_number (m x : Z) : number := if 0 <=? x then mkNum (m * 10 ^ x) 1 0 else mkNum m (10 ^ (- x)) 0.
