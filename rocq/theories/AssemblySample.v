(** * AssemblySample: an assembly of results: the top and a superelement used
    twice, the second file being missing in one of the directories. *)
From Verif Require Import Base Flt SeqFile H5 Schema Parsers SeqSpec StoreSpec ParserSpec LayoutSpec FileSpec DataSpec
  ListFacts SeqProofs FltProofs NumProofs SeqMore StoreProofs ParserRun FileProofs Sample Sample2
  SifNameSpec SifNameProofs Convert ConvertSpec AssemblySpec ConvertSample StrucSpec ElemResSpec StrucExist SaysSpec FileSample.
Open Scope string_scope.
Open Scope Z_scope.
Open Scope list_scope.

(** A file without hierarchy records is the same above and below. *)
Lemma reads_below only k id sub sub' st segs n fs bs st' : reads only k id sub st segs n fs bs st' -> items_of "HIERARCH" segs = [] ->
  reads only k id sub' st segs n fs bs st'.
Proof.
  induction 1; intros E; cbn [items_of flat_map] in E;
    try (apply app_eq_nil in E as [E1 E2]; specialize (IHreads E2));
    try (specialize (IHreads E)); try (now econstructor; eassumption).
  rewrite String.eqb_refl in E1. discriminate E1.
Qed.
Lemma file_below only k id sub' bs segs : file_of only k id false bs segs -> items_of "HIERARCH" segs = [] -> file_of only k id sub' bs segs.
Proof. intros (n & fs & tail & st' & A & B) E. exists n, fs, tail, st'. split; [exact A|]. now apply (reads_below only k id false). Qed.

Definition w_h1 := rec_ [10; 1; 9; 1] [2; 0; 0; 2; 2; 3] (nums (fl [10; 1; 9; 1; 2; 0; 0; 2])) [nums (fl [2; 3])].
Definition w_h2 := rec_ [8; 2; 5; 1] [1; 0; 1; 0] (nums (fl [8; 2; 5; 1; 1; 0; 1; 0])) [[]].
Definition w_h3 := rec_ [8; 3; 5; 2] [1; 0; 1; 0] (nums (fl [8; 3; 5; 2; 1; 0; 1; 0])) [[]].
Definition w_ident := mkItem (fl [2; 9; 3; 0]) [] (mkEntry [PI 2; PI 9; PI 3] []).
Definition w_segs : list seg := [Run "HIERARCH" [w_h1; w_h2; w_h3]; Run "IDENT" [w_ident]; Look "IEND" (fl [0; 0; 0; 0]) []].
Definition w_text : list ascii :=
  flines [("HIERARCH", [10; 1; 9; 1]); ("", [2; 0; 0; 2]); ("", [2; 3]); ("HIERARCH", [8; 2; 5; 1]); ("", [1; 0; 1; 0]);
          ("HIERARCH", [8; 3; 5; 2]); ("", [1; 0; 1; 0]); ("IDENT", [2; 9; 3; 0]); ("IEND", [0; 0; 0; 0])].
Lemma w_file0 : exists bs, bs = w_text /\ file_of [] Fmt 9 false bs w_segs.
Proof.
  eexists. split; [|unfold file_of, w_segs; do 4 eexists; split; [nh "HIERARCH" [10; 1; 9; 1]|]].
  2:{ eapply reads_hierarch; [reflexivity|left; reflexivity|reflexivity|tr|vm_compute; reflexivity| |apply putf_ok; vm_compute; reflexivity|].
      { eapply (run_more _ _ _ _ w_h1); [|hl "HIERARCH" [8; 2; 5; 1]|eapply (run_more _ _ _ _ w_h2); [|hl "HIERARCH" [8; 3; 5; 2]|one "IDENT" [2; 9; 3; 0]]].
        - eapply (lay_hierarch _ _ (fl [10; 1; 9; 1]) _ _ _ _ (fl [2; 3])); [reflexivity|tr|dl [2; 0; 0; 2; 2; 3]].
        - eapply (lay_hierarch _ _ (fl [8; 2; 5; 1]) _ _ _ _ []); [reflexivity|tr|dl [1; 0; 1; 0]].
        - eapply (lay_hierarch _ _ (fl [8; 3; 5; 2]) _ _ _ _ []); [reflexivity|tr|dl [1; 0; 1; 0]]. }
      eapply reads_ident; [left; reflexivity|vm_compute; reflexivity|tr|tr|tr|discriminate|apply putf_ok; vm_compute; reflexivity|nh "IEND" [0; 0; 0; 0]|].
      eapply reads_iend; [left; reflexivity|vm_compute; reflexivity]. }
  vm_compute. reflexivity.
Qed.
Lemma w_file : file_of [] Fmt 9 false w_text w_segs.
Proof. destruct w_file0 as (bs & -> & H). exact H. Qed.
Definition w_places := [mkPlace 1 9 1 2; mkPlace 2 5 1 1; mkPlace 3 5 2 1].
Definition w_dir : dir := [("wR9.SIF", w_text); ("wR5H2.SIF", q_text); ("wR5H3.SIF", q_text)].
Lemma q_below : file_of [] Fmt 5 true q_text q_segs.
Proof. apply file_below; [exact q_file|vm_compute; reflexivity]. Qed.
Lemma q_contents : contents Fmt q_text q_text.
Proof. constructor; [vm_compute; discriminate|apply plain_text; vm_compute; reflexivity]. Qed.
Lemma q_some : some_record q_segs. Proof. do 2 eexists. left. reflexivity. Qed.
Lemma w_assembly : assembly w_dir "w" "R" "SIF" "w" Fmt 9 w_text w_segs w_places.
Proof.
  constructor.
  - discriminate.
  - exists w_text. split; [|exact w_file]. constructor; [vm_compute; discriminate|apply plain_text; vm_compute; reflexivity].
  - do 2 eexists. left. reflexivity.
  - unfold hierarchy_of. match goal with |- Forall2 _ ?l _ => let v := eval vm_compute in l in change l with v end. repeat constructor; saying.
  - intros [|[|[|[|i]]]] p H; try discriminate H; injection H as <-; reflexivity.
  - assert (G : forall p b, pl_type p = 5 -> Some q_text = Some b -> pl_type p <> 0 /\ exists bs segs', contents Fmt b bs /\ file_of [] Fmt (pl_type p) true bs segs' /\ some_record segs').
    { intros p b E X. injection X as <-. rewrite E. split; [discriminate|]. exists q_text, q_segs. split; [exact q_contents|]. split; [exact q_below|exact q_some]. }
    intros p b [<-|[<-|[]]] H; (apply G; [reflexivity|rewrite <- H; vm_compute; reflexivity]).
  - vm_compute. constructor; [|constructor; [intros []|constructor]]. intros [H|[]]. discriminate H.
Qed.
