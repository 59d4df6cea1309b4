(** * SifName: which file names are taken for SESAM files

    The regular expression of sif2hdf5.py:179-182 and helpers.py:34-38,

      (?i)(?P<prefix>[\w-]*?)(?P<letter>[rtgl])(?P<selno>[1-9]\d* )(H[1-9]\d* )?.(?P<ext>(si[fun]|fem))

    matched from the start of the name (re.match), not to its end.  Every part is
    a function which gives all its matches in the order in which the engine tries
    them, as pairs of what is matched and what is left; the first match of the
    whole is the result.  Characters are ASCII: [\w] and [\d] of other alphabets,
    and the two other letters which (?i) takes for i and s, are not modelled. *)
From Verif Require Import Base.
Open Scope string_scope.
Open Scope Z_scope.
Open Scope list_scope.
Open Scope monad_scope.

Definition text := list ascii.
Definition in_range (a b : Z) (c : ascii) : bool := (a <=? code c) && (code c <=? b).
Definition is_digit (c : ascii) : bool := in_range 48 57 c.
Definition is_digit1 (c : ascii) : bool := in_range 49 57 c.
(** [\w-] *)
Definition is_word (c : ascii) : bool :=
  is_digit c || in_range 65 90 c || in_range 97 122 c || (code c =? 95) || (code c =? 45).
(** one letter in either case *)
Definition upper (c : ascii) : ascii := if in_range 97 122 c then chr (code c - 32) else c.
Definition letter_in (l : list ascii) (c : ascii) : bool := existsb (Ascii.eqb (upper c)) l.

(** one character of a class *)
Definition m_char (p : ascii -> bool) (s : text) : list (text * text) :=
  match s with c :: r => if p c then [([c], r)] else [] | [] => [] end.
(** [p*]: the longest first *)
Fixpoint m_star (p : ascii -> bool) (s : text) : list (text * text) :=
  match s with
  | c :: r => if p c then map (fun x => (c :: fst x, snd x)) (m_star p r) ++ [([], s)] else [([], s)]
  | [] => [([], [])]
  end.
(** [p*?]: the shortest first *)
Fixpoint m_lazy (p : ascii -> bool) (s : text) : list (text * text) :=
  match s with
  | c :: r => ([], s) :: (if p c then map (fun x => (c :: fst x, snd x)) (m_lazy p r) else [])
  | [] => [([], [])]
  end.
Definition m_seq (m1 m2 : text -> list (text * text)) (s : text) : list (text * text) :=
  flat_map (fun x => map (fun y => (fst x ++ fst y, snd y)) (m2 (snd x))) (m1 s).
(** [m?]: with it first *)
Definition m_opt (m : text -> list (text * text)) (s : text) : list (text * text) := m s ++ [([], s)].
(** [1-9]\d* *)
Definition m_number : text -> list (text * text) := m_seq (m_char is_digit1) (m_star is_digit).
(** (H[1-9]\d* )? *)
Definition m_hier : text -> list (text * text) := m_opt (m_seq (m_char (letter_in ["H"%char])) m_number).
(** . *)
Definition m_any : text -> list (text * text) := m_char (fun c => negb (Ascii.eqb c nl)).
(** si[fun]|fem *)
Definition m_ext (s : text) : list (text * text) :=
  m_seq (m_char (letter_in ["S"%char])) (m_seq (m_char (letter_in ["I"%char])) (m_char (letter_in ["F"; "U"; "N"]%char))) s ++
  m_seq (m_char (letter_in ["F"%char])) (m_seq (m_char (letter_in ["E"%char])) (m_char (letter_in ["M"%char]))) s.
(** prefix, letter, selno, ext *)
Definition sifname := (text * text * text * text)%type.
Definition m_name (s : text) : list sifname :=
  flat_map (fun p =>
  flat_map (fun l =>
  flat_map (fun n =>
  flat_map (fun h =>
  flat_map (fun a =>
  map (fun e => (fst p, fst l, fst n, fst e)) (m_ext (snd a)))
    (m_any (snd h)))
    (m_hier (snd n)))
    (m_number (snd l)))
    (m_char (letter_in ["R"; "T"; "G"; "L"]%char) (snd p)))
    (m_lazy is_word s).
(** parse_sifname, helpers.py:29-46; [fname] is the last part of the path *)
Definition parse_sifname (fname : text) : Res sifname :=
  match m_name fname with x :: _ => Ok x | [] => Err ValueError end.
(** sif2hdf5.py:184-195 *)
Definition upper_text (l : text) : text := map upper l.
Definition sif_checked (fname : text) : Res sifname :=
  dor x <- parse_sifname fname;
  if lascii_eqb (upper_text (snd x)) (s2l "SIN") then Err ValueError else Ok x.
