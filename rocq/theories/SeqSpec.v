(** * SeqSpec: what a SESAM sequential file looks like.

    Relations between abstract content (names, numbers, records) and
    characters, written down from the format description, without reference to
    the reading functions of [SeqFile].  [kind] (unformatted/formatted) is the
    only thing shared besides the character and float types. *)
From Verif Require Import Base Flt SeqFile RoundSpec.
Open Scope string_scope.
Open Scope Z_scope.
Open Scope list_scope.

(** ** Physical records *)

(** Unformatted: length byte, payload, trailing byte; length byte 129 stands
    for 128.  Formatted: a line. *)
Inductive frame : kind -> list ascii -> list ascii -> Prop :=
| frame_unf p b t :
    (code b = Z.of_nat (length p) /\ code b <> 129) \/
    (code b = 129 /\ length p = 128%nat) ->
    frame Unf p (b :: p ++ [t])
| frame_fmt p :
    ~ In nl p -> frame Fmt p (p ++ [nl]).

Inductive frames (k : kind) : list (list ascii) -> list ascii -> Prop :=
| frames_nil : frames k [] []
| frames_cons p ps b bs : frame k p b -> frames k ps bs -> frames k (p :: ps) (b ++ bs).

(** ** Numbers *)

(** IEEE-754 single: sign bit, biased exponent [ex], fraction [fr]. *)
Inductive single : bool -> Z -> Z -> flt -> Prop :=
| single_nan s fr : fr <> 0 -> single s 255 fr FNan
| single_inf s : single s 255 0 (FInf s)
| single_zero s : single s 0 0 (FZero s)
| single_sub s fr m e :
    fr <> 0 -> Z.odd (Zpos m) = true -> -149 <= e ->
    Zpos m * 2 ^ (e + 149) = fr -> single s 0 fr (FFin s m e)
| single_norm s ex fr m e :
    0 < ex < 255 -> Z.odd (Zpos m) = true -> ex - 150 <= e ->
    Zpos m * 2 ^ (e - (ex - 150)) = 8388608 + fr -> single s ex fr (FFin s m e).

(** Little-endian: the four bytes of the 32-bit word s*2^31 + ex*2^23 + fr. *)
Definition single_bytes (bs : list ascii) (v : flt) : Prop :=
  exists b0 b1 b2 b3 s ex fr,
    bs = [b0; b1; b2; b3] /\ 0 <= ex < 256 /\ 0 <= fr < 8388608 /\
    (if s : bool then 2147483648 else 0) + ex * 8388608 + fr =
      code b0 + code b1 * 256 + code b2 * 65536 + code b3 * 16777216 /\
    single s ex fr v.

(** Decimal digits of a natural number, most significant first. *)
Inductive digits : list ascii -> Z -> Prop :=
| digits_nil : digits [] 0
| digits_snoc l n d : digits l n -> 0 <= d <= 9 -> digits (l ++ [chr (48 + d)]) (10 * n + d).

Inductive sign_txt : list ascii -> bool -> Prop :=
| sign_none : sign_txt [] false
| sign_plus : sign_txt ["+"%char] false
| sign_minus : sign_txt ["-"%char] true.

(** A 16 column field: blanks, sign, digits, point, digits, E, sign, digits,
    blanks; it denotes (-1)^s * m * 10^x.  The exponent may be left out. *)
Inductive efield : list ascii -> bool -> Z -> Z -> Prop :=
| efield_intro i sg s ip n fp m (e : ascii) es exs ed ex j :
    sign_txt sg s ->
    digits ip n -> ip <> [] ->
    digits (ip ++ fp) m ->
    (e = "e"%char \/ e = "E"%char) ->
    sign_txt es exs -> digits ed ex -> ed <> [] ->
    efield (repeat blank i ++ sg ++ ip ++ ["."%char] ++ fp ++ [e] ++ es ++ ed ++ repeat blank j)
           s m ((if exs then - ex else ex) - Z.of_nat (length fp))
| efield_plain i sg s ip n fp m j :
    sign_txt sg s -> digits ip n -> ip <> [] -> digits (ip ++ fp) m ->
    efield (repeat blank i ++ sg ++ ip ++ ["."%char] ++ fp ++ repeat blank j) s m (- Z.of_nat (length fp)).

(** The double a decimal is read as: the nearest one. *)
Definition field_val (l : list ascii) (v : flt) : Prop :=
  exists s m x, efield l s m x /\ rounded64 (dec_number m x) s v.

Inductive enc_num : kind -> list ascii -> flt -> Prop :=
| enc_num_unf bs v : single_bytes bs v -> enc_num Unf bs v
| enc_num_fmt l v : length l = 16%nat -> field_val l v -> enc_num Fmt l v.

Inductive enc_nums (k : kind) : list flt -> list ascii -> Prop :=
| enc_nums_nil : enc_nums k [] []
| enc_nums_cons v vs b bs : enc_num k b v -> enc_nums k vs bs -> enc_nums k (v :: vs) (b ++ bs).

(** ** Headers *)

(** Printable, not blank. *)
Definition graphic (c : ascii) : Prop := 33 <= code c <= 126.

(** A record name in its eight columns. *)
Inductive name8 : string -> list ascii -> Prop :=
| name8_intro n i j :
    n <> "" -> Forall graphic (s2l n) ->
    (i + length (s2l n) + j = 8)%nat ->
    name8 n (repeat blank i ++ s2l n ++ repeat blank j).

Inductive enc_header (k : kind) : string -> list flt -> list ascii -> Prop :=
| enc_header_intro n nb fs fb bs :
    name8 n nb -> enc_nums k fs fb -> frame k (nb ++ fb) bs -> enc_header k n fs bs.

(** ** Continuation records *)

(** Blanks before the numbers of a continuation record: eight in formatted
    files and for the blank-led layout of unformatted files, none for the
    nfield-counted layout of unformatted files. *)
Inductive lead : Set := Lead8 | Lead0.
Definition lead_n (l : lead) : nat := match l with Lead8 => 8%nat | Lead0 => 0%nat end.
Definition lead_of (k : kind) (l : lead) : nat := match k with Fmt => 8%nat | Unf => lead_n l end.

Inductive enc_cont (k : kind) (ld : lead) : list flt -> list ascii -> Prop :=
| enc_cont_intro fs fb bs :
    enc_nums k fs fb -> frame k (repeat blank (lead_of k ld) ++ fb) bs ->
    enc_cont k ld fs bs.

Inductive enc_conts (k : kind) (ld : lead) : list (list flt) -> list ascii -> Prop :=
| enc_conts_nil : enc_conts k ld [] []
| enc_conts_cons c cs b bs :
    enc_cont k ld c b -> enc_conts k ld cs bs -> enc_conts k ld (c :: cs) (b ++ bs).

(** Which ways of cutting data into continuation records are legal: any for
    unformatted files; four per line but the last for formatted files. *)
Fixpoint legal_cut (k : kind) (cs : list (list flt)) : Prop :=
  match cs with
  | [] => True
  | [c] => match k with Unf => True | Fmt => (length c <= 4)%nat end
  | c :: cs' => match k with Unf => True | Fmt => length c = 4%nat end /\ legal_cut k cs'
  end.

(** [data] cut into [cs], the last one possibly filled up with [pad] (fewer
    numbers than it holds). *)
Definition cut_of (k : kind) (data pad : list flt) (cs : list (list flt)) : Prop :=
  legal_cut k cs /\ concat cs = data ++ pad /\
  (cs = [] \/ (length pad < length (last cs []))%nat).

(** Continuation part of a record carrying [data]. *)
Definition enc_data (k : kind) (ld : lead) (data : list flt) (bs : list ascii) : Prop :=
  exists pad cs, cut_of k data pad cs /\ enc_conts k ld cs bs.

(** ** Records *)

(** The part of a record after its header, for a reader that does not know the
    record type and must pass over it; [next] is the name of the record that
    follows ("" at the end of the file). *)
Inductive rest_of_record (k : kind) : string -> list flt -> string -> list ascii -> Prop :=
(* nothing; the next name is a known one *)
| rest_plain n f fs next :
    flt_lt f f0 = false -> prefix "TD" n = false ->
    In next (allowed k) ->
    rest_of_record k n (f :: fs) next []
(* nothing; the first number, read as nfield, promises nothing *)
| rest_small n f fs next z :
    flt_lt f f0 = false -> prefix "TD" n = false ->
    int_of f = Ok z -> z <= 4 ->
    rest_of_record k n (f :: fs) next []
(* blank-led continuation lines, at least one *)
| rest_blank n f fs next p ps bs :
    flt_lt f f0 = false -> prefix "TD" n = false ->
    (forall q, In q (p :: ps) -> exists r, q = blanks8 ++ r) ->
    frames k (p :: ps) bs ->
    rest_of_record k n (f :: fs) next bs
(* nfield-counted numbers without leading blanks (unformatted files only);
   the first eight bytes must not look like a record name or blanks *)
| rest_nfield n f fs next data bs p b bs' :
    flt_lt f f0 = false -> prefix "TD" n = false ->
    k = Unf ->
    int_of f = Ok (4 + Z.of_nat (length data)) -> data <> [] ->
    enc_data k Lead0 data bs ->
    bs = b ++ bs' -> frame k p b -> firstn 8 p <> blanks8 ->
    ~ In (l2s (strip is_space_b (firstn 8 p))) allowed_record_names_str ->
    rest_of_record k n (f :: fs) next bs
(* name records: a counted number of text lines *)
| rest_td n f g a b fs next ma mb ps bs :
    flt_lt f f0 = false -> prefix "TD" n = true ->
    int_of a = Ok ma -> int_of b = Ok mb ->
    length ps = (Z.to_nat (ma / 100) + Z.to_nat (mb / 100))%nat ->
    frames k ps bs ->
    rest_of_record k n (f :: g :: a :: b :: fs) next bs
(* negative first number *)
| rest_neg n f fs next :
    flt_lt f f0 = true -> flt_eq f fm5 = false -> rest_of_record k n (f :: fs) next []
| rest_neg5 n f fs next c bs :
    flt_lt f f0 = true -> flt_eq f fm5 = true -> enc_cont k Lead0 c bs ->
    rest_of_record k n (f :: fs) next bs.

(** End of file: nothing left on a formatted file, one closing byte on an
    unformatted one. *)
Inductive at_end : kind -> list ascii -> Prop :=
| at_end_fmt : at_end Fmt []
| at_end_unf b : at_end Unf [b].

(** What follows a record: the next header, then [tail]; or the end. *)
Inductive enc_next (k : kind) : string -> list flt -> list ascii -> list ascii -> Prop :=
| next_header n fs hb tail : enc_header k n fs hb -> enc_next k n fs (hb ++ tail) tail
| next_end bs : at_end k bs -> enc_next k "" [] bs [].

(** A file seen as a sequence of (name, header numbers). *)
Definition next_name {A} (rs : list (string * A)) : string :=
  match rs with [] => "" | (n, _) :: _ => n end.
Inductive enc_records (k : kind) : list (string * list flt) -> list ascii -> Prop :=
| enc_records_nil bs : at_end k bs -> enc_records k [] bs
| enc_records_cons n fs rs hb rb tail :
    enc_header k n fs hb ->
    rest_of_record k n fs (next_name rs) rb ->
    enc_records k rs tail ->
    enc_records k ((n, fs) :: rs) (hb ++ rb ++ tail).

(** ** Printed whole numbers (C03) *)

(** The [k] last decimal digits of [n], most significant first. *)
Fixpoint decimal (k : nat) (n : Z) : list ascii :=
  match k with
  | O => []
  | S j => decimal j (n / 10) ++ [chr (48 + n mod 10)]
  end.

(** Format E16.8 with one digit before the point, e.g. "  1.23000000E+02". *)
Inductive e16 : Z -> list ascii -> Prop :=
| e16_intro n e :
    0 <= e <= 8 ->
    10 ^ e <= Z.abs n < 10 ^ (e + 1) \/ (n = 0 /\ e = 0) ->
    e16 n ([blank; if n <? 0 then "-"%char else blank]
             ++ firstn 1 (decimal 9 (Z.abs n * 10 ^ (8 - e))) ++ ["."%char]
             ++ skipn 1 (decimal 9 (Z.abs n * 10 ^ (8 - e)))
             ++ s2l "E+0" ++ [chr (48 + e)]).

(** ** Numbers that fit single precision (C02) *)
Definition is_single (v : flt) : Prop :=
  match v with
  | FNan => False
  | FInf _ | FZero _ => True
  | FFin _ m e => Z.odd (Zpos m) = true /\ Zpos m < 2 ^ 24 /\ -149 <= e /\
                  (0 <= e -> Zpos m * 2 ^ e < 2 ^ 128)
  end.

(** ** Lines of a text file with either line end *)
Inductive text_lines : list (list ascii) -> list ascii -> Prop :=
| text_nil : text_lines [] []
| text_lf p ps bs : ~ In nl p -> ~ In "013"%char p -> text_lines ps bs ->
    text_lines (p :: ps) (p ++ [nl] ++ bs)
| text_crlf p ps bs : ~ In nl p -> ~ In "013"%char p -> text_lines ps bs ->
    text_lines (p :: ps) (p ++ ["013"%char; nl] ++ bs).
