(** * RecordSpec: what is found in a data set for records of the main types.

    [it] is the [j]-th record of its type on the file (header numbers [i_fs],
    continuation bytes [i_bs]); [h] the store, [w] the group. *)
From Verif Require Import Base Flt SeqFile H5 Schema SeqSpec StoreSpec ParserSpec LayoutSpec FileSpec DataSpec.
Open Scope string_scope.
Open Scope Z_scope.
Open Scope list_scope.

(** The data found with range [r] in the [m]-th companion array of [n]. *)
Definition found (h : h5) (w : path) (n : string) (m : nat) (r : Z * Z) (d : list cell) : Prop :=
  0 <= fst r <= snd r /\ snd r <= Zlen (array_of h w n m) /\ slice r (array_of h w n m) = d.
(** Whole numbers, given as numbers of the file. *)
Definition whole (fs : list flt) (cs : list cell) : Prop :=
  exists zs, Forall2 trunc_is fs zs /\ cs = map CI zs.
(** Reals, in single precision. *)
Definition reals_ (fs : list flt) : list cell := map (fun f => CF (round32 f)) fs.
Definition reals2 (fs : list (list flt)) : list cell := map (fun f => CV (reals_ f)) fs.
Definition reals3 (fs : list (list (list flt))) : list cell := map (fun f => CV (reals2 f)) fs.
Definition complex_of (re im : list flt) : list cell :=
  map (fun p => CC (round32 (fst p)) (round32 (snd p))) (combine re im).

(** C08: a record of [nc] numbers, [more] of them on continuation lines. *)
Definition fixed_stored (n : string) (nc : nat) (ld : lead) (k : kind) (h : h5) (w : path) (j : nat) (it : item) : Prop :=
  exists more row,
    enc_data k ld more (i_bs it) /\ length more = (nc - 4)%nat /\
    nth_error (tab_rows (tpath w n) h) j = Some row /\ length row = nc /\
    forall i f name t, nth_error (firstn nc (i_fs it ++ more ++ repeat f0 nc)) i = Some f -> nth_error (columns n) i = Some (name, t) ->
      match t with
      | TI => exists z, trunc_is f z /\ nth_error row i = Some (CI z)
      | _ => t = TF /\ nth_error row i = Some (CF (round32 f))
      end.

(** C11 *)
Definition element_stored (k : kind) (h : h5) (w : path) (j : nat) (it : item) : Prop :=
  exists elnox elno eltyp ad zx z t za n nodes r cs,
    i_fs it = [elnox; elno; eltyp; ad] /\
    trunc_is elnox zx /\ trunc_is elno z /\ trunc_is eltyp t /\ trunc_is ad za /\
    In (t, n) node_count /\ length nodes = n /\ enc_data k Lead8 nodes (i_bs it) /\
    row_at h w "GELMNT1" j [CI zx; CI z; CI t; CI za] [r] /\
    whole nodes cs /\ found h w "GELMNT1" 0 r cs.

(** C12: the first number says how many there are. *)
Definition set_stored (k : kind) (h : h5) (w : path) (j : nat) (it : item) : Prop :=
  exists nf isref idx typ orig zs r mem cs,
    i_fs it = [nf; isref; idx; typ] /\ count nf (5 + length mem) /\
    enc_data k Lead0 (orig :: mem) (i_bs it) /\
    Forall2 trunc_is [nf; isref; idx; typ; orig] zs /\
    row_at h w "GSETMEMB" j (map CI zs) [r] /\
    whole mem cs /\ found h w "GSETMEMB" 0 r cs.

(** C13.  [tidy k]: without white space at the ends, as found between blanks. *)
Definition fits (n : nat) (s : list ascii) (c : cell) : Prop := exists x, c = CS x /\ text_of n s x.
Definition name_stored (n : string) (k : kind) (h : h5) (w : path) (j : nat) (it : item) : Prop :=
  exists nf idno cn ct znf zid zn zt names nls texts tls bs1 bs2 name r cs,
    i_fs it = [nf; idno; cn; ct] /\
    trunc_is nf znf /\ trunc_is idno zid /\ trunc_is cn zn /\ trunc_is ct zt /\
    (* so many lines of name and text *)
    Z.of_nat (length names) = zn / 100 /\ Z.of_nat (length texts) = zt / 100 /\
    i_bs it = bs1 ++ bs2 /\ frames k nls bs1 /\ frames k tls bs2 /\
    Forall2 (text_line k) names nls /\ Forall2 (text_line k) texts tls /\
    row_at h w n j [CI znf; CI zid; CI zn; CI zt; name] [r] /\
    fits 64 (concat names) name /\
    Forall2 (fits 64) texts cs /\ found h w n 0 r cs.
Definition text_stored (n : string) (k : kind) (h : h5) (w : path) (j : nat) (it : item) : Prop :=
  exists a b nl e zs lines r cs,
    i_fs it = [a; b; nl; e] /\ count nl (length lines) /\ frames k lines (i_bs it) /\
    Forall2 trunc_is [a; b; nl; e] zs /\ row_at h w n j (map CI zs) [r] /\
    Forall2 (fits 72) lines cs /\ found h w n 0 r cs.

(** C14: a response of [m] components; real parts are the odd, imaginary ones
    the even numbers of the record. *)
Fixpoint odds {A} (l : list A) : list A := match l with a :: r => a :: evens r | [] => [] end
with evens {A} (l : list A) : list A := match l with _ :: r => odds r | [] => [] end.
Definition response (icompl : flt) (data : list flt) (m : nat) (cs : list cell) : Prop :=
  (trunc_is icompl 0 /\ length data = m /\ cs = map (fun f => CC (round32 f) f0) data) \/
  (exists z, trunc_is icompl z /\ z <> 0 /\ length data = (2 * m)%nat /\ cs = complex_of (odds data) (evens data)).
Definition six_stored (n : string) (k : kind) (h : h5) (w : path) (j : nat) (it : item) : Prop :=
  exists nf ibcond iwres icompl zs data cs,
    i_fs it = [nf; ibcond; iwres; icompl] /\ enc_data k Lead0 data (i_bs it) /\
    Forall2 trunc_is [nf; ibcond; iwres; icompl] zs /\ response icompl data 6 cs /\
    row_at h w n j (map CI zs ++ [CV cs]) [].
Definition section_force_stored (k : kind) (h : h5) (w : path) (j : nat) (it : item) : Prop :=
  exists nf ibcond isect iwres icompl zs data cs,
    i_fs it = [nf; ibcond; isect; iwres] /\ enc_data k Lead0 (icompl :: data) (i_bs it) /\
    Forall2 trunc_is [nf; ibcond; isect; iwres; icompl] zs /\ response icompl data 6 cs /\
    row_at h w "W1SFORCE" j (map CI zs ++ [CV cs]) [].
Definition drift_stored (n : string) (m : nat) (k : kind) (h : h5) (w : path) (j : nat) (it : item) : Prop :=
  exists nf ibcond iwres x zs data,
    i_fs it = [nf; ibcond; iwres; x] /\ enc_data k Lead0 data (i_bs it) /\ length (x :: data) = m /\
    Forall2 trunc_is [nf; ibcond; iwres] zs /\
    row_at h w n j (map CI zs ++ [CV (reals_ (x :: data))]) [].
(* pressure, then velocity *)
Definition kinematics_stored (k : kind) (h : h5) (w : path) (j : nat) (it : item) : Prop :=
  exists nf iwres ifk icompl zs data p v,
    i_fs it = [nf; iwres; ifk; icompl] /\ enc_data k Lead0 data (i_bs it) /\
    Forall2 trunc_is [nf; iwres; ifk; icompl] zs /\ response icompl data 4 (p :: v) /\
    row_at h w "WFLUIDKN" j (map CI zs ++ [p; CV v]) [].
Definition panel_stored (k : kind) (h : h5) (w : path) (j : nat) (it : item) : Prop :=
  exists a b c d s icompl data ip is_ zs zip zis p,
    i_fs it = [a; b; c; d] /\ enc_data k Lead0 (s :: icompl :: data ++ [ip; is_]) (i_bs it) /\
    Forall2 trunc_is [a; b; c; d; s; icompl] zs /\ trunc_is ip zip /\ trunc_is is_ zis /\
    ((trunc_is icompl 0 /\ exists x, data = [x] /\ p = CC (round32 x) (round32 f0)) \/
     (exists z x y, trunc_is icompl z /\ z <> 0 /\ data = [x; y] /\ p = CC (round32 x) (round32 y))) /\
    row_at h w "W1PANPRE" j (map CI zs ++ [p; CI zip; CI zis]) [].

(** C15.  The grid code is nok*10000 + noj*100 + noi.  A point with a positive
    number has three coordinates, any other point none. *)
Definition points_stored (k : kind) (h : h5) (w : path) (j : nat) (it : item) : Prop :=
  exists nf alt el cr e nsp ijk nst nl zs zijk (pts : list point) (xfs : list (list (list flt))) r1 r2,
    i_fs it = [nf; alt; el; cr] /\
    Forall2 trunc_is [nf; alt; el; cr; e; nsp; ijk; nst; nl] zs /\ trunc_is ijk zijk /\
    Z.of_nat (length pts) = zijk / 10000 * (zijk / 100 mod 100) * (zijk mod 100) /\
    Forall (fun p => length (snd p) = if flt_lt f0 (fst p) then 3%nat else 0%nat) pts /\
    trunc_is nst (Z.of_nat (length xfs)) /\ Forall (matrix 3 3) xfs /\
    enc_data k Lead0 ([e; nsp; ijk; nst; nl] ++ flat_map point_nums pts ++ concat (concat xfs)) (i_bs it) /\
    row_at h w "RDPOINTS" j (map CI zs) [r1; r2] /\
    found h w "RDPOINTS" 0 r1 (reals2 (map point_nums (filter (fun p => flt_lt f0 (fst p)) pts))) /\
    found h w "RDPOINTS" 1 r2 (reals3 xfs).

(** C16 *)
Definition noderes_stored (n : string) (k : kind) (h : h5) (w : path) (j : nat) (it : item) : Prop :=
  exists nf ires inod irdva itrans zs res r,
    i_fs it = [nf; ires; inod; irdva] /\ count nf (5 + length res) /\
    enc_data k Lead0 (itrans :: res) (i_bs it) /\
    Forall2 trunc_is [nf; ires; inod; irdva; itrans] zs /\
    row_at h w n j (map CI zs) [r] /\ found h w n 0 r (reals_ res).

(** C17 *)
Definition resref_stored (k : kind) (h : h5) (w : path) (j : nat) (it : item) : Prop :=
  exists nf iwres nr nt zs n (rs : list refkind) rd rf rt,
    i_fs it = [nf; iwres; nr; nt] /\ count nr n /\ count nt (length rs) /\
    Forall (fun r => matrix n 2 (snd r)) rs /\ enc_data k Lead0 (flat_map ref_nums rs) (i_bs it) /\
    Forall2 trunc_is [nf; iwres; nr; nt] zs /\
    row_at h w "WDRESREF" j (map CI zs) [rd; rf; rt] /\
    forall z m r d, In (z, m, r) [(1, 0%nat, rd); (2, 1%nat, rf); (3, 2%nat, rt)] -> ref_data rs z d ->
      found h w "WDRESREF" m r (reals2 d).

(** C18: [no] numbers at the end may be missing. *)
Definition section_stored (n : string) (nc no : nat) (k : kind) (h : h5) (w : path) (j : nat) (it : item) : Prop :=
  exists more row,
    ((length more = (nc - 4)%nat /\ enc_data k Lead8 more (i_bs it)) \/
     (exists given cs, more = given ++ repeat f0 no /\ length given = (nc - 4 - no)%nat /\
        cut_of k given [] cs /\ enc_conts k Lead8 cs (i_bs it))) /\
    nth_error (tab_rows (tpath w n) h) j = Some row /\ length row = nc /\ length (i_fs it) = 4%nat /\
    forall i f name t, nth_error (i_fs it ++ more) i = Some f -> nth_error (columns n) i = Some (name, t) ->
      match t with
      | TI => exists z, trunc_is f z /\ nth_error row i = Some (CI z)
      | _ => t = TF /\ nth_error row i = Some (CF (round32 f))
      end.

(** C51 *)
Definition hierarchy_stored (k : kind) (h : h5) (w : path) (j : nat) (it : item) : Prop :=
  exists a b d ns zs subs r cs,
    length (i_fs it) = 4%nat /\ count ns (length subs) /\
    enc_data k Lead0 ([a; b; d; ns] ++ subs) (i_bs it) /\
    Forall2 trunc_is (i_fs it ++ [a; b; d; ns]) zs /\
    row_at h w "HIERARCH" j (map CI zs) [r] /\
    whole subs cs /\ found h w "HIERARCH" 0 r cs.
