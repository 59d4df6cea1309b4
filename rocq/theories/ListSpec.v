(** * ListSpec: what a file should list. *)
From Coq Require Import Sorting.Sorted.
From Verif Require Import Base Flt H5 Schema ConvertSpec AssemblySpec.
Open Scope string_scope.
Open Scope list_scope.

Definition group_with (h : h5) (p : path) (a : list (string * aval)) : Prop := h5_find p h = Some (Group a).
(** The words for the data set of a group. *)
Definition level_words : list (string * string) :=
  [("TOPLEVEL", "toplevel structural"); ("INTERLEVEL", "interlevel structural"); ("FIRSTLEVEL", "firstlevel structural")].
Inductive in_words (h : h5) (p : path) : string -> Prop :=
| words_hydro a : group_with h p a -> sget "DATATYPE" a = Some (AStr "HYDRODYNAMIC") -> in_words h p "hydrodynamic"
| words_struc a l w : group_with h p a -> sget "DATATYPE" a = Some (AStr "STRUCTURAL") -> sget "LEVEL" a = Some (AStr l) ->
    In (l, w) level_words -> in_words h p w.
(** Groups labelled as the conversion does: hydrodynamic, or structural and at the
    top or the first level; below them structural and at a lower level.  Names of
    groups are without the separator. *)
Definition proper_file (h : h5) : Prop :=
  (forall g a, group_with h [g] a -> ~ In "/"%char (s2l g) /\
     (sget "DATATYPE" a = Some (AStr "HYDRODYNAMIC") \/
      sget "DATATYPE" a = Some (AStr "STRUCTURAL") /\ exists l, sget "LEVEL" a = Some (AStr l) /\ In l ["TOPLEVEL"; "FIRSTLEVEL"])) /\
  (forall g s a, group_with h [g; s] a -> sget "DATATYPE" a = Some (AStr "STRUCTURAL") /\
     exists l, sget "LEVEL" a = Some (AStr l) /\ In l ["INTERLEVEL"; "FIRSTLEVEL"]).

(** The keys of a file with the groups they stand for: each group in alphabetical
    order, followed by those below it. *)
Definition listing (h : h5) (ks : list (string * path)) : Prop :=
  exists tops subs, StronglySorted str_lt tops /\ (forall g, In g tops <-> exists a, group_with h [g] a) /\
    (forall g, In g tops -> StronglySorted str_lt (subs g) /\ forall s, In s (subs g) <-> exists a, group_with h [g; s] a) /\
    ks = flat_map (fun g => (g, [g]) :: map (fun s => (under g s, [g; s])) (subs g)) tops.

(** Text in which nothing need be escaped. *)
Definition plain_key (k : string) : Prop := forall c, In c (s2l k) -> (32 <= nat_of_ascii c < 127)%nat /\ nat_of_ascii c <> 39%nat /\ nat_of_ascii c <> 92%nat.
Definition nl : string := String (ascii_of_nat 10) "".
Definition quoted (k : string) : string := String (ascii_of_nat 39) (k ++ String (ascii_of_nat 39) "").
(** Text between quotes, as Python writes it.  A character: as it is; the quote and
    the backslash after a backslash; tab, newline and carriage return by a letter;
    other control characters by two hexadecimal digits.  (Of the characters beyond
    ASCII, those not printable are not treated.) *)
Definition chr (n : nat) : ascii := ascii_of_nat n.
Inductive hex_of : nat -> ascii -> Prop :=
| hex_dec n : (n < 10)%nat -> hex_of n (chr (48 + n))
| hex_let n : (10 <= n < 16)%nat -> hex_of n (chr (87 + n)).
Definition control (c : ascii) : Prop := (nat_of_ascii c < 32)%nat \/ nat_of_ascii c = 127%nat.
Inductive in_quotes (q : ascii) : ascii -> list ascii -> Prop :=
| iq_itself c : ~ control c -> c <> q -> c <> chr 92 -> in_quotes q c [c]
| iq_escaped c : c = q \/ c = chr 92 -> in_quotes q c [chr 92; c]
| iq_letter n l : In (n, l) [(9%nat, "t"%char); (10%nat, "n"%char); (13%nat, "r"%char)] -> in_quotes q (chr n) [chr 92; l]
| iq_hex c n m a b : control c -> ~ In (nat_of_ascii c) [9; 10; 13]%nat -> nat_of_ascii c = (16 * n + m)%nat -> hex_of n a -> hex_of m b ->
    in_quotes q c [chr 92; "x"%char; a; b].
(** Double quotes around text with single but no double ones, single quotes
    otherwise. *)
Inductive quotes_for (k : string) : ascii -> Prop :=
| qf_double : In (chr 39) (s2l k) -> ~ In (chr 34) (s2l k) -> quotes_for k (chr 34)
| qf_single : ~ In (chr 39) (s2l k) \/ In (chr 34) (s2l k) -> quotes_for k (chr 39).
Definition literal (k t : string) : Prop := exists q parts, quotes_for k q /\ Forall2 (in_quotes q) (s2l k) parts /\ s2l t = q :: concat parts ++ [q].
(** The line of a data set. *)
Definition line_of (h : h5) (kp : string * path) (t : string) : Prop :=
  exists k w, literal (fst kp) k /\ in_words h (snd kp) w /\ t = (k ++ ": " ++ w ++ " data" ++ nl)%string.
(** The name of a data set in its own text: the last part of its path. *)
Inductive named : path -> string -> Prop :=
| named_top g : named [g] g
| named_sub g s : named [g; s] s.
(** The line of a table: its name in a field of eight characters. *)
Definition count_line (nc : string * nat) (t : string) : Prop :=
  exists b, (forall c, In c (s2l b) -> c = " "%char) /\ (String.length (fst nc) <= 8 -> String.length (fst nc ++ b) = 8)%nat /\ (8 <= String.length (fst nc) -> b = "")%nat /\
    t = (fst nc ++ b ++ ": " ++ dec (Z.of_nat (snd nc)) ++ nl)%string.
