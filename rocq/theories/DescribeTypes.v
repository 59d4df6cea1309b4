(** * DescribeTypes: the functions of [Describe] for the record types keep to [layout] *)
From Verif Require Import Base Flt SeqFile H5 Schema SeqSpec StoreSpec ParserSpec LayoutSpec FileSpec Sample Describe DescribeProofs.
From Coq Require Import Permutation.
Open Scope string_scope.
Open Scope Z_scope.
Open Scope list_scope.

Lemma take_ok {B} n (l a b : list B) : take n l = Some (a, b) -> l = a ++ b /\ length a = n.
Proof.
  unfold take. destruct (Nat.leb_spec n (length l)); [|discriminate]. intros H1. injection H1 as <- <-. split; [now rewrite firstn_skipn|].
  rewrite firstn_length. lia.
Qed.
Lemma nodes_of_ok t n : nodes_of t = Some n -> In (t, n) node_count.
Proof. unfold nodes_of. intros H. ob H p E. destruct p as [x m]. injection H as <-. apply find_some in E as [I E]. cbn in E. apply Z.eqb_eq in E. now subst. Qed.
Lemma enc_data_nil k ld bs : enc_data k ld [] bs -> bs = [].
Proof.
  intros (pad & cs & (_ & C & D) & E). destruct D as [->|D]; [now inversion E|]. exfalso. cbn [app] in C. subst pad.
  destruct cs as [|c cs'] using rev_ind; [cbn in D; lia|]. rewrite last_last, concat_app, app_length in D. cbn [concat] in D. rewrite app_length in D. lia.
Qed.

Lemma some_pair {A B} (a a' : A) (b b' : B) : Some (a, b) = Some (a', b') -> a = a' /\ b = b'.
Proof. intros H. now injection H. Qed.

Section Sound.
  Variable kinds : list Z.
  Definition sound (names : list string) (ld : lead) (b : builder) : Prop := forall c n fs d e c' k bs rest,
    In n names -> b c n fs d = Some (e, c') -> enc_data k ld d bs -> layout kinds k c n (mkItem fs bs e) rest c'.
  Ltac fin H := apply some_pair in H as [<- <-].
  Ltac only_name I := destruct I as [<-|[]].
  Ltac four fs := destruct fs as [|?x1 [|?x2 [|?x3 [|?x4 [|? ?]]]]]; try discriminate.

  Lemma s_fixed n nc ld : In (n, nc, ld) fixed_types -> sound [n] ld (b_fixed nc).
  Proof.
    intros T c m fs d e c' k bs rest I H E. only_name I. unfold b_fixed in H. gd H G. fin H. apply andb_prop in G as [G1 G2]. apply has_len_ok in G1.
    apply (lay_fixed kinds k c n nc ld fs d bs rest); try assumption. apply orb_prop in G2 as [G2|G2]; [left|right; now apply has_len_ok].
    apply Nat.leb_le in G2. destruct d; [reflexivity|cbn in G1; lia].
  Qed.
  Lemma s_compdef n rv : In (n, rv) comp_types -> sound [n] Lead0 (b_compdef rv).
  Proof.
    intros T c m fs d e c' k bs rest I H E. only_name I. unfold b_compdef in H. four fs. ob H z wh. gd H G. fin H.
    apply whole_ok in wh. apply is_count_ok in G. now apply lay_compdef.
  Qed.
  Lemma s_gusyi : sound ["GUSYI"] Lead8 b_gusyi.
  Proof. intros c m fs d e c' k bs rest I H E. only_name I. unfold b_gusyi in H. gd H G. fin H. apply andb_prop in G as [G1 G2]. apply lay_gusyi; try now apply has_len_ok. exact E. Qed.
  Lemma s_gelmnt1 : sound ["GELMNT1"] Lead8 b_gelmnt1.
  Proof.
    intros c m fs d e c' k bs rest I H E. only_name I. unfold b_gelmnt1 in H. four fs. ob H z wh. ob H t wh2. ob H n N. gd H G. fin H.
    apply (lay_gelmnt1 kinds k c _ _ _ _ z t n); auto using whole_ok, nodes_of_ok, has_len_ok.
  Qed.
  Lemma s_gelmnt2 : sound ["GELMNT2"] Lead8 b_gelmnt2.
  Proof.
    intros c m fs d e c' k bs rest I H E. only_name I. unfold b_gelmnt2 in H. ob H tr wh. destruct tr as [t [|nn nods]]; [discriminate|]. gd H G. fin H.
    apply take_ok in wh as [-> L]. apply andb_prop in G as [G1 G2]. apply (lay_gelmnt2 kinds k c fs t nn nods); auto using has_len_ok, is_count_ok.
  Qed.
  Lemma s_gsetmemb : sound ["GSETMEMB"] Lead0 b_gsetmemb.
  Proof. intros c m fs d e c' k bs rest I H E. only_name I. unfold b_gsetmemb in H. four fs. destruct d as [|x d]; [discriminate|]. gd H G. fin H. apply lay_gsetmemb; auto using is_count_ok. Qed.
  Lemma s_sconcept : sound ["SCONCEPT"] Lead0 b_sconcept.
  Proof.
    intros c m fs d e c' k bs rest I H E. only_name I. unfold b_sconcept in H. four fs. destruct d as [|x [|np [|nj r]]]; try discriminate.
    - ob H t wh. gd H G. fin H. apply Z.eqb_eq in G. subst t. apply lay_sconcept_plain; auto using whole_ok.
    - ob H t wh. gd H G. ob H n N. ob H pj T. destruct pj as [irp irj]. gd H G2. fin H. apply Z.eqb_eq in G. subst t. apply take_ok in T as [-> L].
      apply lay_sconcept_parts; auto using whole_ok, is_count_ok. rewrite L. now apply howmany_ok.
  Qed.
  Lemma s_sconmesh : sound ["SCONMESH"] Lead0 b_sconmesh.
  Proof.
    intros c m fs d e c' k bs rest I H E. only_name I. unfold b_sconmesh in H. four fs. destruct d as [|x d]; [discriminate|]. ob H z wh. gd H G. fin H.
    apply andb_prop in G as [G1 G2]. apply (lay_sconmesh kinds k c _ _ _ z); auto using whole_ok, is_count_ok. lia.
  Qed.
  Lemma s_bnbcd : sound ["BNBCD"] Lead8 b_bnbcd.
  Proof. intros c m fs d e c' k bs rest I H E. only_name I. unfold b_bnbcd in H. four fs. ob H n N. gd H G. fin H. apply lay_bnbcd; auto using howmany_ok, has_len_ok. Qed.
  Lemma s_brigac : sound ["BRIGAC"] Lead8 b_brigac.
  Proof.
    intros c m fs d e c' k bs rest I H E. only_name I. unfold b_brigac in H. four fs. ob H ri T. destruct ri as [r1 im]. ob H im' C. fin H.
    apply take_ok in T as [-> L]. destruct (flt_eq x3 f0) eqn:Q.
    - gd C G. apply has_len_ok in G. destruct im; [|discriminate]. injection C as <-. apply lay_brigac with (im := []); auto.
    - gd C G. apply has_len_ok in G. injection C as <-. apply lay_brigac with (im := im); auto.
  Qed.
  Lemma points_ok : forall n l ps r, points n l = Some (ps, r) -> l = flat_map point_nums ps ++ r /\ length ps = n /\ Forall point_ok ps.
  Proof.
    induction n as [|n IH]; intros l ps r H; cbn [points] in H; [injection H as <- <-; repeat split; constructor|].
    destruct l as [|p l]; [discriminate|]. ob H xr X. destruct xr as [xs r1]. ob H pr P. destruct pr as [qs r2]. injection H as <- <-.
    destruct (IH _ _ _ P) as (A & B & C). cbn [flat_map length]. rewrite B. destruct (flt_lt f0 p) eqn:Q.
    - apply take_ok in X as [-> L]. subst r1. repeat split; [unfold point_nums; cbn [fst snd app]; now rewrite app_assoc|]. constructor; [left; now split|exact C].
    - injection X as <- <-. subst l. repeat split. constructor; [right; now split|exact C].
  Qed.
  Lemma s_rdpoints : sound ["RDPOINTS"] Lead0 b_rdpoints.
  Proof.
    intros c m fs d e c' k bs rest I H E. only_name I. unfold b_rdpoints in H. four fs. destruct d as [|y1 [|y2 [|y3 [|y4 [|y5 r]]]]]; try discriminate.
    ob H z1 wh1. ob H z2 wh2. ob H z3 wh3. ob H z4 wh4. ob H z5 wh5. ob H z wh. gd H G. cbv zeta in H. ob H pr P. destruct pr as [pts q]. ob H m N. ob H rows M. fin H.
    apply points_ok in P as (-> & L & PO). apply to_matrix_ok in M as [[M1 M2] M3].
    pose proof (Z.div_mod z 100 ltac:(lia)). pose proof (Z.div_mod (z / 100) 100 ltac:(lia)). pose proof (Z.mod_pos_bound z 100 ltac:(lia)).
    pose proof (Z.mod_pos_bound (z / 100) 100 ltac:(lia)). rewrite Z.div_div in * by lia. change (100 * 100) with 10000 in *.
    assert (0 <= z / 10000) by (apply Z.div_pos; lia).
    assert (X : concat (map (@concat flt) (map (in_rows 3 3) rows)) = q /\ Forall (matrix 3 3) (map (in_rows 3 3) rows)).
    { rewrite <- M3. clear -M2. induction M2 as [|x rows L _ [IA IB]]; [split; constructor|]. destruct (in_rows_ok 3 3 x L) as (A & B & C). cbn [map concat]. rewrite A, IA. split; [reflexivity|].
      constructor; [now split|exact IB]. }
    destruct X as [X1 X2]. apply lay_rdpoints; auto using whole_ok; try lia.
    - rewrite !Z2Nat.id by lia. replace (10000 * (z / 10000) + 100 * ((z / 100) mod 100) + z mod 100) with z by lia. now apply whole_ok.
    - rewrite map_length, M1. now apply howmany_ok.
    - rewrite X1. exact E.
  Qed.
  Lemma grid_ok c cr loc : grid c cr = Some loc -> grid_of c cr loc.
  Proof.
    unfold grid, grid_of. destruct (x_points c cr) as [l|]; [intros H; injection H as <-; now left|]. destruct (Z.eqb_spec cr 15); [intros H; injection H as <-; right; auto|].
    destruct (Z.eqb_spec cr 24); [intros H; injection H as <-; right; auto|discriminate].
  Qed.
  Lemma s_rdielcor : sound ["RDIELCOR"] Lead0 b_rdielcor.
  Proof.
    intros c m fs d e c' k bs rest I H E. only_name I. unfold b_rdielcor in H. four fs. ob H cr wh. ob H loc L. destruct loc as [[[zl zk] zj] zi]. gd H G.
    ob H p1 T1. destruct p1 as [gs r1]. ob H p2 T2. destruct p2 as [be r2]. ob H p3 T3. destruct p3 as [al r3]. ob H la M. fin H.
    apply take_ok in T1 as [-> L1]. apply take_ok in T2 as [-> L2]. apply take_ok in T3 as [-> L3]. apply to_matrix_ok in M as [M1 <-].
    apply (lay_rdielcor kinds k c _ _ _ _ cr (Z.to_nat zl) (Z.to_nat zk) (Z.to_nat zj) (Z.to_nat zi)); auto using whole_ok. rewrite !Z2Nat.id by lia. now apply grid_ok.
  Qed.
  Lemma s_rdresref : sound ["RDRESREF"] Lead0 b_rdresref.
  Proof.
    intros c m fs d e c' k bs rest I H E. only_name I. unfold b_rdresref in H. four fs. destruct d as [|y1 [|y2 [|y3 r]]]; try discriminate.
    ob H z1 wh1. ob H z2 wh2. ob H n N. ob H gs M. fin H. apply to_matrix_ok in M as [[M1 M2] <-]. apply lay_rdresref; auto using whole_ok. rewrite M1. now apply howmany_ok.
  Qed.
  Lemma s_combi : sound combi_types Lead0 b_combi.
  Proof.
    intros c m fs d e c' k bs rest I H E. unfold b_combi in H. four fs. ob H n N. ob H gs M. fin H. apply to_matrix_ok in M as [[M1 M2] <-].
    apply lay_combi; auto. rewrite M1. now apply howmany_ok.
  Qed.
  Lemma s_nodres : sound nodres_types Lead0 b_nodres.
  Proof.
    intros c m fs d e c' k bs rest I H E. unfold b_nodres in H. four fs. destruct d as [|y r]; [discriminate|]. ob H z wh. ob H ic C. gd H G. fin H.
    apply andb_prop in G as [G1 G2]. apply Z.eqb_eq in G1. subst ic. apply (lay_nodres kinds k c m _ _ _ _ _ z); auto using whole_ok, is_count_ok.
  Qed.
  Lemma s_elmres : sound elmres_types Lead0 b_elmres.
  Proof.
    intros c m fs d e c' k bs rest I H E. unfold b_elmres in H. four fs. destruct d as [|y r]; [discriminate|]. ob H z1 wh1. ob H z2 wh2. ob H z3 wh3. ob H z4 wh4.
    ob H nsp N. ob H lr L. ob H ic C. gd H G. fin H. apply Z.eqb_eq in G. apply (lay_elmres kinds k c m _ _ _ _ _ z1 z2 z3 z4 nsp lr ic); auto using whole_ok.
  Qed.
  Lemma refkinds_ok n : forall m l rs, refkinds m n l = Some rs ->
    length rs = m /\ l = flat_map ref_nums (map fst rs) /\ Forall2 (fun (r : refkind) j => trunc_is (fst r) j) (map fst rs) (map snd rs) /\
    Forall (fun r : refkind => matrix n 2 (snd r)) (map fst rs).
  Proof.
    induction m as [|m IH]; intros l rs H; cbn [refkinds] in H.
    - gd H G. apply has_len_ok in G. destruct l; [|discriminate]. injection H as <-. repeat split; constructor.
    - destruct l as [|f l]; [discriminate|]. ob H z wh. ob H ar T. destruct ar as [a r]. ob H qs Q. injection H as <-. apply take_ok in T as [-> L].
      destruct (IH _ _ Q) as (A & -> & B & C). destruct (in_rows_ok 2 n a L) as (R1 & R2 & R3). cbn [map flat_map length fst snd].
      split; [now rewrite A|].
      split; [change (ref_nums (f, in_rows n 2 a)) with (f :: concat (in_rows n 2 a)); rewrite R1; reflexivity|]. split; constructor; auto using whole_ok. now split.
  Qed.
  Lemma ref_of_ok rs j : Forall2 (fun (r : refkind) i => trunc_is (fst r) i) (map fst rs) (map snd rs) -> ref_data (map fst rs) j (ref_of rs j).
  Proof.
    intros F. unfold ref_of. destruct (find _ rs) as [[[f d] i]|] eqn:E.
    - apply find_some in E as [I E]. cbn in E. apply Z.eqb_eq in E. subst i. left. exists f. split; [exact (in_map fst _ _ I)|].
      clear -F I. induction rs as [|[x i] rs IH]; [destruct I|]. cbn in F. inversion F; subst. destruct I as [I|I]; [injection I as -> ->; assumption|now apply IH].
    - right. split; [|reflexivity]. intros r I. apply in_map_iff in I as ([x i] & <- & I). cbn [fst]. pose proof (find_none _ _ E _ I) as N. cbn in N.
      intros T. assert (T2 : trunc_is (fst x) i).
      { clear -F I. induction rs as [|[y i'] rs IH]; [destruct I|]. cbn in F. inversion F; subst. destruct I as [I|I]; [injection I as -> ->; assumption|now apply IH]. }
      apply StoreProofs.trunc_int_of in T, T2. rewrite T in T2. injection T2 as ->. lia.
  Qed.
  Lemma zin_ok z l : zin z l = true -> In z l.
  Proof. intros H. apply existsb_exists in H as (x & I & E). apply Z.eqb_eq in E. now subst. Qed.
  Lemma no_dup_ok l : no_dup l = true -> NoDup l.
  Proof.
    induction l as [|x l IH]; [constructor|]. cbn [no_dup]. intros H. apply andb_prop in H as [A B]. constructor; [|now apply IH]. intros I.
    rewrite negb_true_iff in A. assert (zin x l = true) by (apply existsb_exists; exists x; split; [exact I|apply Z.eqb_refl]). congruence.
  Qed.
  Lemma s_wdresref : sound ["WDRESREF"] Lead0 (b_wdresref kinds).
  Proof.
    intros c m fs d e c' k bs rest I H E. only_name I. unfold b_wdresref in H. four fs. ob H n N. ob H m M. ob H rs R. cbv zeta in H. gd H G. fin H.
    apply andb_prop in G as [G G4]. apply andb_prop in G as [G G3]. apply andb_prop in G as [G1 G2]. apply refkinds_ok in R as (L & -> & F & X).
    apply (lay_wdresref kinds k c _ _ _ _ (map fst rs) n); auto using howmany_ok, no_dup_ok, ref_of_ok.
    - rewrite map_length, L. now apply howmany_ok.
    - exists (map snd rs). split; [exact F|]. apply NoDup_Permutation_bis; [now apply no_dup_ok|apply Nat.eqb_eq in G3; lia|].
      intros x I. rewrite forallb_forall in G4. now apply zin_ok, G4.
  Qed.
  Lemma s_wglobdef : sound ["WGLOBDEF"] Lead0 b_wglobdef.
  Proof.
    intros c m fs d e c' k bs rest I H E. only_name I. unfold b_wglobdef in H. four fs. destruct d as [|y [|? ?]]; try discriminate; ob H z wh; gd H G; fin H.
    - apply enc_data_nil in E. subst bs. apply lay_wglobdef_infinite. apply Z.eqb_eq in G. subst. now apply whole_ok.
    - apply (lay_wglobdef_finite kinds k c _ _ _ _ z); auto using whole_ok. lia.
  Qed.
  Lemma s_wbody : sound ["WBODY"] Lead0 (b_square 12 4).
  Proof.
    intros c m fs d e c' k bs rest I H E. only_name I. unfold b_square in H. ob H rr T. destruct rr as [r1 r]. ob H t M. gd H G. fin H.
    apply take_ok in T as [-> L]. apply to_matrix_ok in M as [M <-]. apply lay_wbody; auto using has_len_ok.
  Qed.
  Lemma s_w1matrix : sound ["W1MATRIX"] Lead0 (b_square 2 6).
  Proof.
    intros c m fs d e c' k bs rest I H E. only_name I. unfold b_square in H. ob H rr T. destruct rr as [r1 r]. ob H t M. gd H G. fin H.
    apply take_ok in T as [-> L]. apply to_matrix_ok in M as [M <-]. apply lay_w1matrix; auto using has_len_ok.
  Qed.
  Lemma pairs_ok : forall n l ps, (length l <= n)%nat -> pairs l = Some ps -> l = parts ps.
  Proof.
    induction n as [|n IH]; intros l ps L H; destruct l as [|x [|y l]]; cbn in L; try lia; cbn [pairs] in H; try discriminate; try (injection H as <-; reflexivity).
    ob H qs Q. injection H as <-. cbn [parts flat_map fst snd app]. rewrite (IH l qs); [reflexivity|lia|exact Q].
  Qed.
  Lemma values_ok ic m l v : values ic m l = Some v ->
    (trunc_is ic 0 /\ v = nums l /\ length l = m) \/ (exists z ps, trunc_is ic z /\ z <> 0 /\ l = parts ps /\ length ps = m /\ v = complexes ps).
  Proof.
    unfold values. intros H. ob H z wh. destruct (Z.eqb_spec z 0) as [->|N].
    - gd H G. injection H as <-. left. auto using whole_ok, has_len_ok.
    - ob H ps P. gd H G. injection H as <-. right. exists z, ps. apply (pairs_ok _ _ _ (le_n _)) in P. repeat split; auto using whole_ok, has_len_ok.
  Qed.
  Lemma s_six : sound six_types Lead0 b_six.
  Proof.
    intros c m fs d e c' k bs rest I H E. unfold b_six in H. four fs. ob H v V. fin H. apply values_ok in V as [(A & -> & B)|(z & ps & A & B & -> & C & ->)].
    - now apply lay_six_real.
    - now apply (lay_six_complex kinds k c m _ _ _ _ z).
  Qed.
  Lemma s_w1sforce : sound ["W1SFORCE"] Lead0 b_w1sforce.
  Proof.
    intros c m fs d e c' k bs rest I H E. only_name I. unfold b_w1sforce in H. four fs. destruct d as [|ic r]; [discriminate|]. ob H v V. fin H. apply values_ok in V as [(A & -> & B)|(z & ps & A & B & -> & C & ->)].
    - now apply lay_w1sforce_real.
    - now apply (lay_w1sforce_complex kinds k c _ _ _ _ _ z).
  Qed.
  Lemma s_w2hdrift : sound ["W2HDRIFT"] Lead0 (b_drift 2).
  Proof. intros c m fs d e c' k bs rest I H E. only_name I. unfold b_drift in H. four fs. gd H G. fin H. apply lay_w2hdrift; auto using has_len_ok. Qed.
  Lemma s_w2mdrift : sound ["W2MDRIFT"] Lead0 (b_drift 5).
  Proof. intros c m fs d e c' k bs rest I H E. only_name I. unfold b_drift in H. four fs. gd H G. fin H. apply lay_w2mdrift; auto using has_len_ok. Qed.
  Lemma s_wfkpoint : sound ["WFKPOINT"] Lead0 b_wfkpoint.
  Proof. intros c m fs d e c' k bs rest I H E. only_name I. unfold b_wfkpoint in H. four fs. destruct d as [|y [|? ?]]; try discriminate. fin H. now apply lay_wfkpoint. Qed.
  Lemma s_wfluidkn : sound ["WFLUIDKN"] Lead0 b_wfluidkn.
  Proof.
    intros c m fs d e c' k bs rest I H E. only_name I. unfold b_wfluidkn in H. four fs. ob H z wh. destruct (Z.eqb_spec z 0) as [->|N].
    - destruct d as [|p v]; [discriminate|]. gd H G. fin H. apply lay_wfluidkn_real; auto using whole_ok, has_len_ok.
    - ob H ps P. destruct ps as [|p v]; [discriminate|]. gd H G. fin H. apply (pairs_ok _ _ _ (le_n _)) in P. subst d.
      apply (lay_wfluidkn_complex kinds k c _ _ _ _ z); auto using whole_ok, has_len_ok.
  Qed.
  Lemma s_wsection : sound ["WSECTION"] Lead0 b_wsection.
  Proof.
    intros c m fs d e c' k bs rest I H E. only_name I. unfold b_wsection in H. four fs. destruct d as [|u r]; [discriminate|]. ob H p1 T1. destruct p1 as [q1 r1].
    ob H p2 T2. destruct p2 as [q2 q3]. gd H G. fin H. apply take_ok in T1 as [-> L1]. apply take_ok in T2 as [-> L2]. apply lay_wsection; auto using has_len_ok.
  Qed.
  Lemma is_f1_ok f : is_f1 f = true -> f = f1.
  Proof. unfold is_f1, f1. destruct f as [| | |[|] [ | |] [| |]]; try discriminate. reflexivity. Qed.
  Lemma comp_take_ok cplx : forall cs l u v q, comp_take cplx cs l = Some (u, v, q) -> l = u ++ q /\ comp_vals cplx cs u v.
  Proof.
    induction cs as [|x cs IH]; intros l u v q H; cbn [comp_take] in H; [injection H as <- <- <-; split; [reflexivity|constructor]|].
    destruct (flt_eq x f0) eqn:Z0.
    - ob H r R. destruct r as [[u' v'] q']. injection H as <- <- <-. destruct (IH _ _ _ _ R) as [-> A]. split; [reflexivity|now constructor].
    - destruct (is_f1 x) eqn:O; [|discriminate]. apply is_f1_ok in O. destruct cplx.
      + destruct l as [|y1 [|y2 l]]; try discriminate. ob H r R. destruct r as [[u' v'] q']. injection H as <- <- <-. destruct (IH _ _ _ _ R) as [-> A]. split; [reflexivity|]. now apply comp_cplx.
      + destruct l as [|y1 l]; try discriminate. ob H r R. destruct r as [[u' v'] q']. injection H as <- <- <-. destruct (IH _ _ _ _ R) as [-> A]. split; [reflexivity|]. now apply comp_real.
  Qed.
  Lemma surf_points_ok cplx cs : forall f l ps vs, surf_points f cplx cs l = Some (ps, vs) -> l = concat ps /\ Forall2 (surf_point cplx cs) ps vs.
  Proof.
    induction f as [|f IH]; intros l ps vs H; destruct l as [|x l]; cbn [surf_points] in H; try discriminate; try (injection H as <- <-; split; constructor).
    ob H r R. destruct r as [[u v] q]. ob H pv P. destruct pv as [ps' vs']. injection H as <- <-. apply comp_take_ok in R as [-> A]. destruct (IH _ _ _ P) as [-> B].
    split; [reflexivity|]. constructor; [|exact B]. exists x, u, v. now repeat split.
  Qed.
  Lemma s_wsurface : sound ["WSURFACE"] Lead0 b_wsurface.
  Proof.
    intros c m fs d e c' k bs rest I H E. only_name I. unfold b_wsurface in H. four fs. destruct d as [|ic [|cx [|cy [|cz r]]]]; try discriminate. gd H G. ob H pv P. destruct pv as [ps vals]. fin H.
    apply andb_prop in G as [G G3]. apply andb_prop in G as [G1 G2]. apply surf_points_ok in P as [-> P].
    apply (lay_wsurface kinds k c _ _ _ _ _ _ _ _ (is_f1 ic) ps); auto using is_count_ok.
    - destruct (is_f1 ic) eqn:O; [now apply is_f1_ok|exact G1].
    - intros _. apply Forall_forall. intros f F. rewrite forallb_forall in G2. apply G2 in F. apply orb_prop in F as [F|F]; [left; now apply is_f1_ok|now right].
  Qed.
  Lemma s_winput : sound ["WINPUT"] Lead0 b_winput.
  Proof.
    intros c m fs d e c' k bs rest I H E. only_name I. unfold b_winput in H. four fs. ob H rows M. fin H. apply to_matrix_ok in M as [M C].
    now apply (lay_winput kinds k c _ _ _ _ rows d).
  Qed.
  Lemma s_w1panpre : sound ["W1PANPRE"] Lead0 b_w1panpre.
  Proof.
    intros c m fs d e c' k bs rest I H E. only_name I. unfold b_w1panpre in H.
    destruct d as [|y1 [|y2 [|y3 [|y4 [|y5 [|y6 [|? ?]]]]]]]; try discriminate; ob H z wh; gd H G; fin H; apply andb_prop in G as [G1 G2].
    - apply Z.eqb_eq in G1. subst z. apply lay_w1panpre_real; auto using whole_ok, has_len_ok.
    - apply (lay_w1panpre_complex kinds k c _ _ _ z); auto using whole_ok, has_len_ok. lia.
  Qed.
  Theorem builders_ok : Forall (fun t => sound (fst (fst t)) (snd (fst t)) (snd t)) (builders kinds).
  Proof.
    unfold builders. repeat rewrite Forall_app. split; [|split].
    - apply Forall_forall. intros x I. apply in_map_iff in I as ([[n nc] ld] & <- & I). now apply s_fixed.
    - apply Forall_forall. intros x I. apply in_map_iff in I as ([n rv] & <- & I). now apply s_compdef.
    - repeat constructor; cbn [fst snd]; auto using s_gusyi, s_gelmnt1, s_gelmnt2, s_gsetmemb, s_sconcept, s_sconmesh, s_bnbcd, s_brigac, s_rdpoints, s_rdielcor, s_rdresref, s_combi,
        s_nodres, s_elmres, s_wdresref, s_wglobdef, s_wbody, s_w1matrix, s_six, s_w1sforce, s_w2hdrift, s_w2mdrift, s_wfkpoint, s_wfluidkn, s_wsection, s_wsurface, s_winput, s_w1panpre.
  Qed.
End Sound.
