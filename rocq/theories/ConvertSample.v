(** * ConvertSample: assemblies of two files *)
From Verif Require Import Base Flt SeqFile H5 Schema Parsers Data Files SifName Convert SeqSpec StoreSpec ParserSpec LayoutSpec FileSpec DataSpec
  ListFacts NumProofs StoreProofs ParserRun FileProofs Sample Sample2 ParseMore SifNameSpec SifNameProofs ConvertSpec AssemblySpec AssemblyProofs.
Open Scope string_scope.
Open Scope Z_scope.
Open Scope list_scope.
Open Scope monad_scope.

(** ** Names *)
Lemma word_text s : forallb is_word s = true -> Forall word_char s.
Proof. intros H. now apply (forallb_Forall is_word word_char s word_class). Qed.
Lemma digit_text s : forallb SifName.is_digit s = true -> Forall digit_char s.
Proof. intros H. now apply (forallb_Forall SifName.is_digit digit_char s digit_class). Qed.
Lemma number_text d s : is_digit1 d = true -> forallb SifName.is_digit s = true -> number (d :: s).
Proof. intros A B. exists d, s. split; [reflexivity|]. split; [now apply digit1_class|now apply digit_text]. Qed.
(** an extension at one of the places of a text *)
Fixpoint has_ext (s : list ascii) : bool := match s with [] => false | _ :: r => match m_ext s with [] => has_ext r | _ => true end end.
Lemma has_ext_none s : has_ext s = false -> no_extension s.
Proof.
  intros H a e b E X. subst s. induction a as [|c a IH]; cbn [app] in *.
  - assert (I : In (e, b) (m_ext (e ++ b))) by (apply in_ext; split; [exact X|reflexivity]).
    destruct X as [X|[X|[X|X]]]; apply spelled3 in X as (x & y & z & -> & _); cbn [app has_ext] in H; cbn [app] in I; destruct (m_ext _); try discriminate; destruct I.
  - apply IH. cbn [has_ext] in H. destruct (m_ext _); [exact H|discriminate].
Qed.
Ltac sesam c h := exists c, h; split; [reflexivity|]; split; [apply type_class; reflexivity|]; split; [apply word_text; reflexivity|];
  split; [apply number_text; reflexivity|]; split; [|split].

(** ** An assembly: top and one superelement below *)
Definition x_places := [mkPlace 1 1 1 2; mkPlace 2 2 1 1].
Definition x_dir : dir := [("xR1.SIF", s_text); ("yR1.SIF", b_text); ("xR2H2.SIF", b_text)].
Definition x_models : dir := [("T1.FEM", s_text); ("T2.FEM", b_text); ("T3.FEM", s_text)].
Lemma plain_text s : forallb (fun c => negb (Ascii.eqb c "013")) s = true -> unified s s.
Proof.
  induction s as [|c s IH]; cbn; intros H; [constructor|]. apply andb_true_iff in H as (H & H2). constructor; [|now apply IH].
  destruct (Ascii.eqb_spec c "013"); [discriminate|assumption].
Qed.
Ltac saying := eexists; split; [reflexivity|apply int_of_trunc; vm_compute; reflexivity].
Lemma x_hierarchy : hierarchy_of s_segs x_places.
Proof. unfold hierarchy_of. match goal with |- Forall2 _ ?l _ => let v := eval vm_compute in l in change l with v end.
  repeat constructor; saying. Qed.
Lemma x_in_order : in_order x_places.
Proof. intros [|[|[|i]]] p H; try discriminate H; injection H as <-; reflexivity. Qed.
Lemma x_assembly : assembly x_dir "x" "R" "SIF" "x" Fmt 1 s_text s_segs x_places.
Proof.
  constructor.
  - discriminate.
  - exists s_text. split; [|exact s_file]. constructor; [vm_compute; discriminate|apply plain_text; vm_compute; reflexivity].
  - do 2 eexists. left. reflexivity.
  - exact x_hierarchy.
  - exact x_in_order.
  - intros p b [<-|[]] H. split; [discriminate|]. replace b with b_text by (vm_compute in H; injection H as <-; reflexivity).
    exists b_text, b_segs. split; [|split; [exact b_file|do 2 eexists; left; reflexivity]]. constructor; [vm_compute; discriminate|apply plain_text; vm_compute; reflexivity].
  - vm_compute. constructor; [easy|constructor].
Qed.
