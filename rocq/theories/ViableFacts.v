(** The pattern for phone numbers and the pattern for extensions describe exactly the texts of ViableSpec. *)
From Verif Require Import Base BaseFacts Utf8 Utf8Facts Regex RegexSpec RegexFacts LangFacts Consts Types Normalize NormalizeSpec NormalizeFacts Validate Format Parse
  NumberSpec NumberFacts MetaSpec ValidateSpec ValidateFacts Container Shipped MetaFacts FormatSpec TextFacts FormatFacts FormatMore ParseSpec ParseFacts ParseMore ContextFacts
  RoundSpec DerivFacts RoundTripFacts PropsValidate RuleSpec RuleFacts RuleMore ReadSpec ReadFacts ReadMore ExtFacts DialFacts AlphaSpec AlphaFacts UnicodeSpec UnicodeTables ViableSpec.
Local Opaque compile re_find re_replace_all.

(** * Case-insensitive classes *)
Lemma fold_self c : In c (fold_orbit c).
Proof. unfold fold_orbit. repeat match goal with |- context [if ?b then _ else _] => destruct b eqn:?; [cbn [In]; lia|] end. left. reflexivity. Qed.
(** The characters that have other forms lie in these few ranges; any other character is alone in its orbit. *)
Definition folding : list (N * N) := [(65, 90); (97, 122); (181, 181); (192, 255); (376, 376); (383, 383); (924, 924); (956, 956); (1040, 1103); (7296, 7302); (7838, 7838); (8490, 8491); (65313, 65338); (65345, 65370)].
Definition spread (r : N * N) : list N := map (fun n => fst r + N.of_nat n) (seq 0 (N.to_nat (snd r + 1 - fst r))).
Lemma spread_in r c : fst r <= c <= snd r -> In c (spread r).
Proof. intros H. unfold spread. apply in_map_iff. exists (N.to_nat (c - fst r)). split; [lia|]. apply in_seq. lia. Qed.
Lemma fold_alone c : existsb (fun r => in_rng (fst r) (snd r) c) folding = false -> fold_orbit c = [c].
Proof.
  intros H. unfold folding in H. cbn [existsb fst snd] in H. unfold in_rng in H. unfold fold_orbit, in_rng. rewrite !orb_false_iff in H.
  repeat match goal with |- (if ?b then _ else _) = _ => replace b with false by (symmetry; lia) end. reflexivity.
Qed.
Lemma fold_high c : 65400 <= c -> fold_orbit c = [c].
Proof. intros H. apply fold_alone. unfold folding. cbn [existsb fst snd]. unfold in_rng. rewrite !orb_false_iff. lia. Qed.
Lemma fold_check : forallb (fun c => forallb (fun a => existsb (N.eqb c) (fold_orbit a)) (fold_orbit c)) (flat_map spread folding) = true.
Proof. vm_compute. reflexivity. Qed.
Lemma fold_sym a c : In a (fold_orbit c) -> In c (fold_orbit a).
Proof.
  intros I. destruct (existsb (fun r => in_rng (fst r) (snd r) c) folding) eqn:E; [|rewrite fold_alone in I by auto; destruct I as [<-|[]]; rewrite fold_alone by auto; left; auto].
  apply existsb_exists in E as (r & Ir & R). apply in_rng_iff in R. pose proof fold_check as B. rewrite forallb_forall in B. assert (J : In c (flat_map spread folding)) by (apply in_flat_map; exists r; split; [exact Ir|apply spread_in; exact R]). specialize (B _ J). cbv beta in B. rewrite forallb_forall in B.
  specialize (B a I). apply existsb_exists in B as (x & Ix & E). apply N.eqb_eq in E. subst x. exact Ix.
Qed.
Definition points (i : citem) : option (list N) := match i with CR a b => Some (map (fun n => a + N.of_nat n) (seq 0 (N.to_nat (b + 1 - a)))) | _ => None end.
Fixpoint all_points (l : list citem) : option (list N) := match l with
  | [] => Some []
  | i :: l => match points i, all_points l with Some a, Some b => Some (a ++ b) | _, _ => None end
  end.
Lemma points_ok i l c : points i = Some l -> citem_match i c = true <-> In c l.
Proof.
  destruct i as [a b| |]; intros H; inv H. cbn [citem_match]. rewrite in_rng_iff, in_map_iff. split.
  - intros R. exists (N.to_nat (c - a)). split; [lia|]. apply in_seq. lia.
  - intros (n & <- & I). apply in_seq in I. lia.
Qed.
Lemma all_points_ok l ps c : all_points l = Some ps -> items_match l c = true <-> In c ps.
Proof.
  revert ps. induction l as [|i l IH]; intros ps H; cbn [all_points] in H; [inv H; split; [discriminate|intros []]|].
  destruct (points i) as [a|] eqn:P; [|discriminate]. destruct (all_points l) as [b|]; [|discriminate]. inv H. unfold items_match in *. cbn [existsb]. rewrite orb_true_iff, in_app_iff, (points_ok i a) by auto. rewrite (IH b) by auto. reflexivity.
Qed.
Lemma fold_cls l ps c : all_points l = Some ps -> cls_match {| cneg := false; citems := l; cfold := true |} c = true <-> In c (flat_map fold_orbit ps).
Proof.
  intros H. unfold cls_match. cbn [cneg cfold citems]. rewrite existsb_exists, in_flat_map. split.
  - intros (x & I & M). apply (all_points_ok l ps) in M; auto. exists x. split; [exact M|]. apply fold_sym. exact I.
  - intros (x & I & J). exists x. split; [apply fold_sym; exact J|]. apply (all_points_ok l ps); auto.
Qed.
Definition same_set (a b : list N) : bool := forallb (fun c => existsb (N.eqb c) b) a && forallb (fun c => existsb (N.eqb c) a) b.
Lemma same_set_ok a b : same_set a b = true -> forall c, In c a <-> In c b.
Proof.
  unfold same_set. rewrite andb_true_iff, !forallb_forall. intros [A B] c. split; intros I; [apply A in I|apply B in I]; apply existsb_exists in I as (x & Ix & E); apply N.eqb_eq in E; subst x; exact Ix.
Qed.
(** The class means exactly this set. *)
Definition means (k : cls) (l : list N) : bool := negb (cneg k) && cfold k && match all_points (citems k) with Some ps => same_set (flat_map fold_orbit ps) l | None => false end.
Lemma means_ok k l c : means k l = true -> cls_match k c = true <-> In c l.
Proof.
  destruct k as [n it f]. unfold means. cbn [cneg cfold citems]. destruct n; [discriminate|]. destruct f; [|discriminate]. cbn [negb andb]. destruct (all_points it) as [ps|] eqn:P; [|discriminate]. intros S.
  rewrite (fold_cls it ps) by auto. apply same_set_ok. exact S.
Qed.

(** * Expressions without stars *)
Fixpoint words (r : regex) : option (list (list N)) := match r with
  | REmpty => Some [[]]
  | RClass k => if negb (cneg k) && cfold k then match all_points (citems k) with Some ps => Some (map (fun a => [a]) ps) | None => None end else None
  | RCat a b => match words a, words b with Some x, Some y => Some (flat_map (fun u => map (fun v => u ++ v) y) x) | _, _ => None end
  | RAlt a b => match words a, words b with Some x, Some y => Some (x ++ y) | _, _ => None end
  | RGroup _ a => words a
  | _ => None
  end.
Definition wr (label w : list N) : Prop := Forall2 (fun a c => In c (fold_orbit a)) label w.
Lemma lang_alt a b w : lang (RAlt a b) w <-> lang a w \/ lang b w.
Proof. split; [intros H; inversion H; auto|intros [H|H]; [apply L_alt_l|apply L_alt_r]; auto]. Qed.
Lemma lang_empty w : lang REmpty w <-> w = []. Proof. split; [intros H; inversion H; auto|intros ->; constructor]. Qed.
Lemma lang_group n a w : lang (RGroup n a) w <-> lang a w. Proof. split; [intros H; inversion H; auto|constructor; auto]. Qed.
Lemma words_ok r : forall ws, words r = Some ws -> forall w, lang r w <-> exists l, In l ws /\ wr l w.
Proof.
  induction r as [|k|a IHa b IHb|a IHa b IHb|g a IHa|n a IHa| |]; intros ws H w; cbn [words] in H; try discriminate.
  - inv H. rewrite lang_empty. split; [intros ->; exists []; split; [left; auto|constructor]|]. intros (l & [<-|[]] & W). inversion W. reflexivity.
  - destruct k as [ng it f]. cbn [cneg cfold citems] in H. destruct ng; [discriminate|]. destruct f; [|discriminate]. cbn [negb andb] in H. destruct (all_points it) as [ps|] eqn:P; [|discriminate]. inv H.
    rewrite lang_cls. split.
    + intros (c & -> & M). apply (fold_cls it ps) in M; auto. apply in_flat_map in M as (a & I & J). exists [a]. split; [apply in_map_iff; eauto|]. constructor; [exact J|constructor].
    + intros (l & I & W). apply in_map_iff in I as (a & <- & I). inversion W as [|? c ? ? J W']. subst. inversion W'. subst. exists c. split; [reflexivity|]. apply (fold_cls it ps); auto. apply in_flat_map. eauto.
  - destruct (words a) as [x|]; [|discriminate]. destruct (words b) as [y|]; [|discriminate]. inv H. rewrite lang_cat. split.
    + intros (u & v & -> & A & B). apply (IHa x) in A as (l1 & I1 & W1); auto. apply (IHb y) in B as (l2 & I2 & W2); auto. exists (l1 ++ l2). split; [apply in_flat_map; exists l1; split; [auto|]; apply in_map_iff; eauto|apply Forall2_app; auto].
    + intros (l & I & W). apply in_flat_map in I as (l1 & I1 & I). apply in_map_iff in I as (l2 & <- & I2). apply Forall2_app_inv_l in W as (u & v & W1 & W2 & ->). exists u, v. split; [reflexivity|]. split; [apply (IHa x); eauto|apply (IHb y); eauto].
  - destruct (words a) as [x|]; [|discriminate]. destruct (words b) as [y|]; [|discriminate]. inv H. rewrite lang_alt, (IHa x), (IHb y) by auto. split.
    + intros [(l & I & W)|(l & I & W)]; exists l; split; auto; apply in_or_app; auto.
    + intros (l & I & W). apply in_app_or in I as [I|I]; eauto.
  - rewrite lang_group. apply IHa. exact H.
Qed.
Fixpoint same_text (a b : list N) : bool := match a, b with [], [] => true | x :: a, y :: b => (x =? y) && same_text a b | _, _ => false end.
Lemma same_text_ok a : forall b, same_text a b = true -> a = b.
Proof. induction a as [|x a IH]; intros [|y b] H; cbn [same_text] in H; try discriminate; [reflexivity|]. apply andb_true_iff in H as [H1 H2]. apply N.eqb_eq in H1. f_equal; auto. Qed.
Definition same_texts (a b : list (list N)) : bool := forallb (fun x => existsb (same_text x) b) a && forallb (fun x => existsb (same_text x) a) b.
Lemma same_texts_ok a b : same_texts a b = true -> forall x, In x a <-> In x b.
Proof.
  unfold same_texts. rewrite andb_true_iff, !forallb_forall. intros [A B] c. split; intros I; [apply A in I|apply B in I]; apply existsb_exists in I as (x & Ix & E); apply same_text_ok in E; subst x; exact Ix.
Qed.
(** The expression means these labels. *)
Definition labels (r : regex) (ls : list (list N)) : bool := match words r with Some ws => same_texts ws ls | None => false end && forallb (forallb (fun a => same_set (fold_orbit a) (cases a))) ls.
Lemma wr_written l w : forallb (fun a => same_set (fold_orbit a) (cases a)) l = true -> wr l w <-> written l w.
Proof.
  intros H. unfold wr, written. revert w. induction l as [|a l IH]; intros w; [split; intros X; inversion X; constructor|]. cbn [forallb] in H. apply andb_true_iff in H as [H1 H2].
  split; intros X; inversion X as [|? c ? v I V]; subst; constructor; try (apply (same_set_ok _ _ H1); exact I); apply IH; auto.
Qed.
Lemma labels_ok r ls w : labels r ls = true -> lang r w <-> exists l, In l ls /\ written l w.
Proof.
  unfold labels. destruct (words r) as [ws|] eqn:E; [|discriminate]. rewrite andb_true_iff. intros [S F]. rewrite (words_ok r ws) by auto. pose proof (same_texts_ok _ _ S) as T. rewrite forallb_forall in F.
  split; intros (l & I & W); exists l; [apply T in I; split; [exact I|apply wr_written; auto]|]. split; [apply T; exact I|]. apply wr_written; auto.
Qed.

(** * The extension pattern *)
Fixpoint flat (r : regex) : regex := match r with
  | RCat a b => RCat (flat a) (flat b)
  | RAlt a b => RAlt (flat a) (flat b)
  | RStar _ a => RStar true (flat a)
  | RGroup _ a => flat a
  | _ => r
  end.
Lemma flat_ok r w : lang r w <-> lang (flat r) w.
Proof.
  revert w. induction r as [|k|a IHa b IHb|a IHa b IHb|g a IHa|n a IHa| |]; intros w; cbn [flat]; try reflexivity.
  - rewrite !lang_cat. split; intros (u & v & E & A & B); exists u, v; (split; [exact E|]); split; try apply IHa; try apply IHb; auto.
  - rewrite !lang_alt, IHa, IHb. reflexivity.
  - split; intros H.
    + remember (RStar g a) as r eqn:E. induction H; inversion E; subst; [constructor|]. apply L_star_more; [apply IHa; auto|auto].
    + remember (RStar true (flat a)) as r eqn:E. induction H; inversion E; subst; [constructor|]. apply L_star_more; [apply IHa; auto|auto].
  - rewrite lang_group. apply IHa.
Qed.
Definition cl (l : list N) : regex := RClass {| cneg := false; citems := map (fun c => CR c c) l; cfold := true |}.
Definition nd : regex := RClass k_nd.
Fixpoint upto (n : nat) : regex := match n with O => REmpty | S O => RCat nd REmpty | S n => RCat nd (RAlt (upto n) REmpty) end.
Definition opt_dot : regex := RAlt (RCat (cl [58; 46; 65294]) REmpty) REmpty.
Definition opt_hash : regex := RAlt (RCat (cl [35]) REmpty) REmpty.
Definition ext_rest (n : nat) : regex := RCat opt_dot (RCat (RStar true (cl [32; 160; 9; 44; 45])) (RCat (upto n) opt_hash)).
Definition some_of (l : list N) : regex := RCat (cl l) (RStar true (cl l)).
Definition lab20 : regex := Eval vm_compute in match flat ext_body with RAlt _ (RAlt (RCat _ (RCat a _)) _) => a | _ => REmpty end.
Definition lab9 : regex := Eval vm_compute in match flat ext_body with RAlt _ (RAlt _ (RAlt (RCat _ (RCat a _)) _)) => a | _ => REmpty end.
Definition lab15 : regex := Eval vm_compute in match flat ext_body with RAlt _ (RAlt _ (RAlt _ (RAlt _ (RAlt (RCat _ (RCat a _)) _)))) => a | _ => REmpty end.
Definition sp4 : regex := RStar true (cl [32; 160; 9; 44]).
Definition sp3 : regex := RStar true (cl [32; 160; 9]).
Definition ext_flat : regex :=
  RAlt (RCat (cl [59]) (RCat (cl [101]) (RCat (cl [120]) (RCat (cl [116]) (RCat (cl [61]) (upto 20))))))
  (RAlt (RCat sp4 (RCat lab20 (ext_rest 20)))
  (RAlt (RCat sp4 (RCat lab9 (ext_rest 9)))
  (RAlt (RCat (some_of [45; 32]) (RCat (upto 6) (cl [35])))
  (RAlt (RCat sp3 (RCat lab15 (ext_rest 15)))
        (RCat sp3 (RCat (some_of [44]) (ext_rest 9))))))).
Lemma ext_flat_ok : flat ext_body = ext_flat. Proof. vm_compute. reflexivity. Qed.
Lemma vp_ext_flat : flat vp_ext = RCat ext_flat REmpty. Proof. vm_compute. reflexivity. Qed.
Lemma lab20_ok : labels lab20 long_labels = true. Proof. vm_compute. reflexivity. Qed.
Lemma lab9_ok : labels lab9 short_labels = true. Proof. vm_compute. reflexivity. Qed.
Lemma lab15_ok : labels lab15 [[44; 44]; [59]] = true. Proof. vm_compute. reflexivity. Qed.
Definition plain_set (l : list N) : bool := means {| cneg := false; citems := map (fun c => CR c c) l; cfold := true |} l.
Lemma cl_ok l w : plain_set l = true -> lang (cl l) w <-> exists c, w = [c] /\ In c l.
Proof. intros P. unfold cl. rewrite lang_cls. split; intros (c & E & M); exists c; (split; [exact E|]); apply (means_ok _ l c P); exact M. Qed.
Lemma star_cl g l w : plain_set l = true -> lang (RStar g (cl l)) w <-> made_of l w.
Proof.
  intros P. split.
  - intros L. apply star_class_lang in L. rewrite Forall_forall in L. intros c I. apply (means_ok _ l c P). apply L. exact I.
  - intros M. apply star_lang. apply forallb_forall. intros c I. apply (means_ok _ l c P). apply M. exact I.
Qed.
Lemma some_of_ok l w : plain_set l = true -> lang (some_of l) w <-> w <> [] /\ made_of l w.
Proof.
  intros P. unfold some_of. rewrite lang_cat. split.
  - intros (u & v & -> & U & V). apply cl_ok in U as (c & -> & I); auto. apply star_cl in V; auto. split; [discriminate|]. intros x [<-|X]; auto.
  - intros [Ne M]. destruct w as [|c w]; [congruence|]. exists [c], w. split; [reflexivity|]. split; [apply cl_ok; auto; exists c; split; [reflexivity|apply M; left; auto]|apply star_cl; auto; intros x X; apply M; right; auto].
Qed.
Lemma nd_lang w : lang nd w <-> exists c, w = [c] /\ decimal c = true.
Proof. unfold nd. rewrite lang_cls. split; intros (c & E & M); exists c; (split; [exact E|]); [rewrite k_nd_ok in M|rewrite k_nd_ok]; exact M. Qed.
Lemma upto_ok n : (1 <= n)%nat -> forall w, lang (upto n) w <-> some_digits n w.
Proof.
  unfold some_digits. induction n as [|n IH]; [lia|]. intros _ w. destruct n as [|n].
  - cbn [upto]. rewrite lang_cat. split.
    + intros (u & v & -> & U & V). apply nd_lang in U as (c & -> & D). apply lang_empty in V. subst v. cbn [app length]. split; [lia|]. intros x [<-|[]]. exact D.
    + intros [L D]. destruct w as [|c [|? ?]]; cbn [length] in L; try lia. exists [c], []. split; [reflexivity|]. split; [apply nd_lang; exists c; split; [reflexivity|apply D; left; auto]|apply lang_empty; auto].
  - change (upto (S (S n))) with (RCat nd (RAlt (upto (S n)) REmpty)). rewrite lang_cat. split.
    + intros (u & v & -> & U & V). apply nd_lang in U as (c & -> & D). apply lang_alt in V as [V|V].
      * apply IH in V as [L V]; [|lia]. cbn [app length]. split; [lia|]. intros x [<-|X]; auto.
      * apply lang_empty in V. subst v. cbn [app length]. split; [lia|]. intros x [<-|[]]. exact D.
    + intros [L D]. destruct w as [|c w]; cbn [length] in L; [lia|]. exists [c], w. split; [reflexivity|]. split; [apply nd_lang; exists c; split; [reflexivity|apply D; left; auto]|]. apply lang_alt. destruct w as [|c' w].
      * right. apply lang_empty. reflexivity.
      * left. apply IH; [lia|]. split; [cbn [length] in *; lia|]. intros x X. apply D. right. exact X.
Qed.
Lemma opt_ok l w : plain_set l = true -> lang (RAlt (RCat (cl l) REmpty) REmpty) w <-> w = [] \/ exists c, w = [c] /\ In c l.
Proof.
  intros P. rewrite lang_alt, lang_cat, lang_empty. split.
  - intros [(u & v & -> & U & V)| ->]; [|auto]. apply cl_ok in U as (c & -> & I); auto. apply lang_empty in V. subst v. right. exists c. auto.
  - intros [->|(c & -> & I)]; [auto|]. left. exists [c], []. split; [reflexivity|]. split; [apply cl_ok; eauto|apply lang_empty; auto].
Qed.
Lemma ext_rest_ok n w : (1 <= n)%nat -> lang (ext_rest n) w <-> rest_of_extension n w.
Proof.
  intros Hn. unfold ext_rest, rest_of_extension. rewrite lang_cat. split.
  - intros (dot & v & -> & U & V). apply opt_ok in U; [|vm_compute; reflexivity]. apply lang_cat in V as (gap & v' & -> & G & V). apply star_cl in G; [|vm_compute; reflexivity]. apply lang_cat in V as (d & hash & -> & D & H). apply upto_ok in D; auto. apply opt_ok in H; [|vm_compute; reflexivity].
    exists dot, gap, d, hash. split; [reflexivity|]. split; [|split; [exact G|split; [exact D|]]].
    + destruct U as [->|(c & -> & I)]; [left; auto|]. cbn [In] in I. destruct I as [<-|[<-|[<-|[]]]]; cbn [In]; auto.
    + destruct H as [->|(c & -> & I)]; [left; auto|]. cbn [In] in I. destruct I as [<-|[]]; cbn [In]; auto.
  - intros (dot & gap & d & hash & -> & U & G & D & H). exists dot, (gap ++ d ++ hash). split; [reflexivity|]. split.
    { apply opt_ok; [vm_compute; reflexivity|]. cbn [In] in U. destruct U as [<-|[<-|[<-|[<-|[]]]]]; [auto| | |]; right; eexists; (split; [reflexivity|]); cbn [In]; auto. }
    apply lang_cat. exists gap, (d ++ hash). split; [reflexivity|]. split; [apply star_cl; [vm_compute; reflexivity|exact G]|]. apply lang_cat. exists d, hash. split; [reflexivity|]. split; [apply upto_ok; auto|].
    apply opt_ok; [vm_compute; reflexivity|]. cbn [In] in H. destruct H as [<-|[<-|[]]]; [auto|]. right. eexists. split; [reflexivity|]. cbn [In]. auto.
Qed.
Definition uri_label : regex := RCat (cl [59]) (RCat (cl [101]) (RCat (cl [120]) (RCat (cl [116]) (cl [61])))).
Lemma uri_label_ok : labels uri_label [bs ";ext="] = true. Proof. vm_compute. reflexivity. Qed.
Lemma cat_assoc a b c w : lang (RCat a (RCat b c)) w <-> lang (RCat (RCat a b) c) w.
Proof.
  rewrite !lang_cat. split.
  - intros (u & v & -> & U & V). apply lang_cat in V as (v1 & v2 & -> & V1 & V2). exists (u ++ v1), v2. split; [apply app_assoc|]. split; [apply lang_cat; eauto 6|exact V2].
  - intros (u & v & -> & U & V). apply lang_cat in U as (u1 & u2 & -> & U1 & U2). exists u1, (u2 ++ v). split; [symmetry; apply app_assoc|]. split; [exact U1|]. apply lang_cat. eauto 6.
Qed.
Lemma cat_mono a b b' w : (forall v, lang b v <-> lang b' v) -> lang (RCat a b) w <-> lang (RCat a b') w.
Proof. intros H. rewrite !lang_cat. split; intros (u & v & E & U & V); exists u, v; (split; [exact E|]); split; auto; apply H; exact V. Qed.
Lemma cat3 a b c w : lang (RCat a (RCat b c)) w <-> exists x y z, w = x ++ y ++ z /\ lang a x /\ lang b y /\ lang c z.
Proof.
  rewrite lang_cat. split.
  - intros (x & v & -> & X & V). apply lang_cat in V as (y & z & -> & Y & Z). exists x, y, z. auto.
  - intros (x & y & z & -> & X & Y & Z). exists x, (y ++ z). split; [reflexivity|]. split; [exact X|]. apply lang_cat. eauto.
Qed.
Lemma or_mono (A B C D : Prop) : (A <-> B) -> (C <-> D) -> (A \/ C <-> B \/ D). Proof. tauto. Qed.
Lemma ext_lang e : lang ext_flat e <-> extension e.
Proof.
  unfold ext_flat, extension. rewrite !lang_alt. apply or_mono; [|apply or_mono; [|apply or_mono; [|apply or_mono; [|apply or_mono]]]].
  - assert (X : lang (RCat (cl [59]) (RCat (cl [101]) (RCat (cl [120]) (RCat (cl [116]) (RCat (cl [61]) (upto 20)))))) e <-> lang (RCat uri_label (upto 20)) e).
    { unfold uri_label. rewrite <- cat_assoc. apply cat_mono. intros v1. rewrite <- cat_assoc. apply cat_mono. intros v2. rewrite <- cat_assoc. apply cat_mono. intros v3. rewrite <- cat_assoc. reflexivity. }
    rewrite X, lang_cat. split.
    + intros (l & d & -> & L & D). apply (labels_ok _ _ _ uri_label_ok) in L as (l0 & [<-|[]] & L). apply upto_ok in D; [|lia]. eauto.
    + intros (l & d & -> & L & D). exists l, d. split; [reflexivity|]. split; [apply (labels_ok _ _ _ uri_label_ok); eexists; split; [left; reflexivity|exact L]|apply upto_ok; [lia|exact D]].
  - rewrite cat3. split.
    + intros (b & l & w & -> & B & L & W). apply star_cl in B; [|vm_compute; reflexivity]. apply (labels_ok _ _ _ lab20_ok) in L as (l0 & I & L). apply ext_rest_ok in W; [|lia]. exists b, l0, l, w. auto.
    + intros (b & l0 & l & w & -> & B & I & L & W). exists b, l, w. split; [reflexivity|]. split; [apply star_cl; [vm_compute; reflexivity|exact B]|]. split; [apply (labels_ok _ _ _ lab20_ok); eauto|apply ext_rest_ok; [lia|exact W]].
  - rewrite cat3. split.
    + intros (b & l & w & -> & B & L & W). apply star_cl in B; [|vm_compute; reflexivity]. apply (labels_ok _ _ _ lab9_ok) in L as (l0 & I & L). apply ext_rest_ok in W; [|lia]. exists b, l0, l, w. auto.
    + intros (b & l0 & l & w & -> & B & I & L & W). exists b, l, w. split; [reflexivity|]. split; [apply star_cl; [vm_compute; reflexivity|exact B]|]. split; [apply (labels_ok _ _ _ lab9_ok); eauto|apply ext_rest_ok; [lia|exact W]].
  - rewrite cat3. split.
    + intros (b & d & w & -> & B & D & W). apply some_of_ok in B as [Ne B]; [|vm_compute; reflexivity]. apply upto_ok in D; [|lia]. apply cl_ok in W as (c & -> & I); [|vm_compute; reflexivity]. cbn [In] in I. destruct I as [<-|[]]. exists b, d. auto.
    + intros (b & d & -> & Ne & B & D). exists b, d, [35]. split; [reflexivity|]. split; [apply some_of_ok; [vm_compute; reflexivity|auto]|]. split; [apply upto_ok; [lia|exact D]|]. apply cl_ok; [vm_compute; reflexivity|]. exists 35. split; [reflexivity|left; auto].
  - rewrite cat3. split.
    + intros (b & l & w & -> & B & L & W). apply star_cl in B; [|vm_compute; reflexivity]. apply (labels_ok _ _ _ lab15_ok) in L as (l0 & I & L). apply ext_rest_ok in W; [|lia]. exists b, l, w. split; [reflexivity|]. split; [exact B|]. split; [|exact W].
      cbn [In] in I. destruct I as [<-|[<-|[]]]; repeat match goal with H : written _ _ |- _ => inversion H; subst; clear H | H : Forall2 _ _ _ |- _ => inversion H; subst; clear H end; repeat match goal with H : In _ (cases _) |- _ => vm_compute in H; destruct H as [<-|[]] end; cbn [In]; auto.
    + intros (b & l & w & -> & B & I & W). exists b, l, w. split; [reflexivity|]. split; [apply star_cl; [vm_compute; reflexivity|exact B]|]. split; [apply (labels_ok _ _ _ lab15_ok)|apply ext_rest_ok; [lia|exact W]].
      exists l. split; [exact I|]. cbn [In] in I. destruct I as [<-|[<-|[]]]; repeat constructor.
  - rewrite cat3. split.
    + intros (b & l & w & -> & B & L & W). apply star_cl in B; [|vm_compute; reflexivity]. apply some_of_ok in L as [Ne L]; [|vm_compute; reflexivity]. apply ext_rest_ok in W; [|lia]. exists b, l, w. auto.
    + intros (b & l & w & -> & B & Ne & L & W). exists b, l, w. split; [reflexivity|]. split; [apply star_cl; [vm_compute; reflexivity|exact B]|]. split; [apply some_of_ok; [vm_compute; reflexivity|auto]|apply ext_rest_ok; [lia|exact W]].
Qed.
Lemma ext_body_lang e : lang ext_body e <-> extension e.
Proof. rewrite flat_ok, ext_flat_ok. apply ext_lang. Qed.
Lemma vp_ext_lang e : lang vp_ext e <-> extension e.
Proof.
  rewrite flat_ok, vp_ext_flat, lang_cat. split.
  - intros (u & v & -> & U & V). apply lang_empty in V. subst v. rewrite app_nil_r. apply ext_lang. exact U.
  - intros H. exists e, []. rewrite app_nil_r. split; [reflexivity|]. split; [apply ext_lang; exact H|apply lang_empty; auto].
Qed.

(** * The number pattern *)
Lemma punct_means : means vp_punct signs = true. Proof. vm_compute. reflexivity. Qed.
Definition tail_items : list citem := Eval vm_compute in removelast (citems vp_tail).
Definition tail_cls : cls := {| cneg := false; citems := tail_items; cfold := true |}.
Definition letters_all : list N := abc ++ [383; 8490].
Lemma tail_means : means tail_cls (signs ++ letters_all) = true. Proof. vm_compute. reflexivity. Qed.
Lemma letters_all_ok c : In c letters_all <-> wide_letter c = true.
Proof. unfold letters_all, wide_letter. rewrite in_app_iff, abc_iff, !orb_true_iff, !N.eqb_eq. cbn [In]. intuition congruence. Qed.
Lemma tail_split c : cls_match vp_tail c = cls_match tail_cls c || existsb (in_table tab_Nd) (fold_orbit c).
Proof.
  change vp_tail with {| cneg := false; citems := tail_items ++ [CU UNd]; cfold := true |}. unfold tail_cls, cls_match. cbn [cneg cfold citems]. generalize (fold_orbit c). intros l.
  induction l as [|x l IH]; [reflexivity|]. cbn [existsb]. rewrite IH. unfold items_match at 1. rewrite existsb_app. cbn [existsb citem_match ucat_table]. fold (items_match tail_items x). rewrite orb_false_r.
  destruct (items_match tail_items x), (in_table tab_Nd x), (existsb (items_match tail_items) l), (existsb (in_table tab_Nd) l); reflexivity.
Qed.
Lemma decimal_fold : forallb (fun p => match fold_orbit (fst p) with [_] => true | _ => false end) decimal_values = true. Proof. vm_compute. reflexivity. Qed.
Lemma decimal_single c : decimal c = true -> fold_orbit c = [c].
Proof.
  intros D. pose proof (fold_self c) as F. unfold decimal, digit_for in D. destruct (assoc N.eqb c decimal_values) as [v|] eqn:A; [|discriminate]. apply (assoc_In N.eqb N.eqb_eq) in A.
  pose proof decimal_fold as B. rewrite forallb_forall in B. specialize (B _ A). cbn [fst] in B. destruct (fold_orbit c) as [|x [|]]; try discriminate. destruct F as [->|[]]. reflexivity.
Qed.
Lemma tail_ok c : cls_match vp_tail c = true <-> decimal c = true \/ wide_letter c = true \/ In c signs.
Proof.
  rewrite tail_split, orb_true_iff, (means_ok _ _ c tail_means), in_app_iff, letters_all_ok. assert (X : existsb (in_table tab_Nd) (fold_orbit c) = true <-> decimal c = true); [|tauto].
  rewrite existsb_exists. split.
  - intros (x & I & T). rewrite nd_decimal in T. apply fold_sym in I. rewrite decimal_single in I by auto. destruct I as [->|[]]. exact T.
  - intros D. exists c. split; [apply fold_self|]. rewrite nd_decimal. exact D.
Qed.
Lemma piece_iff w : lang vp_piece w <-> exists u c, w = u ++ [c] /\ made_of signs u /\ decimal c = true.
Proof.
  unfold vp_piece. rewrite lang_cat. split.
  - intros (u & v & -> & U & V). apply nd_lang in V as (c & -> & D). exists u, c. split; [reflexivity|]. split; [|exact D]. apply star_class_lang in U. rewrite Forall_forall in U. intros x I. apply (means_ok _ _ x punct_means). apply U. exact I.
  - intros (u & c & -> & U & D). exists u, [c]. split; [reflexivity|]. split; [|apply nd_lang; eauto]. apply star_lang. apply forallb_forall. intros x I. apply (means_ok _ _ x punct_means). apply U. exact I.
Qed.
Lemma signs_nodigit : forallb (fun c => negb (decimal c)) signs = true. Proof. vm_compute. reflexivity. Qed.
Lemma no_decimals u : made_of signs u -> filter decimal u = [].
Proof.
  intros M. pose proof signs_nodigit as B. rewrite forallb_forall in B. induction u as [|c u IH]; [reflexivity|]. cbn [filter]. specialize (B c (M c (or_introl eq_refl))) as Bc. apply negb_true_iff in Bc. rewrite Bc. apply IH. intros x I. apply M. right. exact I.
Qed.
Definition calm (w : list N) : Prop := forall c, In c w -> decimal c = true \/ In c signs.
Lemma piece_calm w : lang vp_piece w -> calm w /\ length (filter decimal w) = 1%nat.
Proof.
  intros L. apply piece_iff in L as (u & c & -> & U & D). split.
  - intros x I. apply in_app_or in I as [I|[<-|[]]]; auto.
  - rewrite filter_app, no_decimals by auto. cbn [filter app]. rewrite D. reflexivity.
Qed.
Lemma pieces_calm g w : lang (RStar g vp_piece) w -> calm w.
Proof.
  intros L. remember (RStar g vp_piece) as r eqn:E. induction L; inversion E; subst; [intros c []|]. apply piece_calm in L1 as [C _]. intros c I. apply in_app_or in I as [I|I]; [auto|]. apply IHL2; auto.
Qed.
Lemma calm_split w n : calm w -> length (filter decimal w) = S n -> exists u v, w = u ++ v /\ lang vp_piece u /\ calm v /\ length (filter decimal v) = n.
Proof.
  induction w as [|c w IH]; intros A L; [discriminate|]. cbn [filter] in L. assert (Aw : calm w) by (intros x I; apply A; right; exact I). destruct (decimal c) eqn:E.
  - exists [c], w. split; [reflexivity|]. split; [apply piece_iff; exists [], c; split; [reflexivity|]; split; [intros x []|exact E]|]. split; [exact Aw|]. cbn [length] in L. lia.
  - destruct IH as (u & v & -> & P & C & Lv); auto. apply piece_iff in P as (y & z & -> & Y & Z). exists (c :: y ++ [z]), v. split; [reflexivity|]. split; [|auto]. apply piece_iff. exists (c :: y), z. split; [reflexivity|]. split; [|exact Z].
    intros x [<-|I]; [|auto]. destruct (A c (or_introl eq_refl)) as [H|H]; [congruence|exact H].
Qed.
Lemma body_lang w : lang (RCat (RCat vp_piece (RCat vp_piece (RCat vp_piece (RStar true vp_piece)))) (RStar true (RClass vp_tail))) w <-> body w.
Proof.
  rewrite lang_cat. unfold body. split.
  - intros (a & b & -> & A & B). exists a, b. split; [reflexivity|]. apply lang_cat in A as (a1 & a' & -> & A1 & A). apply cat3 in A as (a2 & a3 & a4 & -> & A2 & A3 & A4).
    apply piece_calm in A1 as [C1 L1], A2 as [C2 L2], A3 as [C3 L3]. apply pieces_calm in A4. split; [|split].
    + intros c I. rewrite !in_app_iff in I. destruct I as [I|[I|[I|I]]]; auto.
    + rewrite !filter_app, !app_length. lia.
    + intros c I. apply tail_ok. apply star_class_lang in B. rewrite Forall_forall in B. apply B. exact I.
  - intros (a & b & -> & A & L & B). destruct (length (filter decimal a)) as [|[|[|n]]] eqn:E; try lia.
    destruct (calm_split a _ A E) as (u1 & v1 & -> & P1 & C1 & E1). destruct (calm_split v1 _ C1 E1) as (u2 & v2 & -> & P2 & C2 & E2). destruct (calm_split v2 _ C2 E2) as (u3 & v3 & -> & P3 & C3 & _).
    exists (u1 ++ u2 ++ u3 ++ []), (v3 ++ b). split; [rewrite app_nil_r, <- !app_assoc; reflexivity|]. split.
    + apply lang_cat. exists u1, (u2 ++ u3 ++ []). split; [reflexivity|]. split; [exact P1|]. apply cat3. exists u2, u3, []. split; [reflexivity|]. split; [exact P2|]. split; [exact P3|]. constructor.
    + apply star_lang. apply forallb_forall. intros c I. apply tail_ok. apply in_app_or in I as [I|I]; [|auto]. destruct (C3 c I); auto.
Qed.
Lemma vp_a_ok w : lang vp_a w <-> exists a b, w = [a; b] /\ decimal a = true /\ decimal b = true.
Proof.
  assert (E : vp_a = RCat nd (RCat nd REmpty)) by (vm_compute; reflexivity). rewrite E, cat3. split.
  - intros (x & y & z & -> & X & Y & Z). apply nd_lang in X as (a & -> & A), Y as (b & -> & B). apply lang_empty in Z. subst z. exists a, b. auto.
  - intros (a & b & -> & A & B). exists [a], [b], []. split; [reflexivity|]. split; [apply nd_lang; eauto|]. split; [apply nd_lang; eauto|]. constructor.
Qed.
Lemma vp_k_means : means vp_k [43; 65291] = true. Proof. vm_compute. reflexivity. Qed.
Lemma vp_lang w : lang (RGroup 1 (RAlt vp_a (RCat (RStar true (RClass vp_k)) vp_b))) w <-> number_text w.
Proof.
  rewrite lang_group, lang_alt, vp_a_ok. unfold number_text. apply or_iff_compat_l. rewrite vp_b_shape. split.
  - intros H. apply lang_cat in H as (p & v & -> & P & V). apply cat3 in V as (x & y & e & -> & X & Y & Z). exists p, (x ++ y), e. split; [rewrite <- app_assoc; reflexivity|]. split.
    + intros c I. apply (means_ok _ _ c vp_k_means). apply star_class_lang in P. rewrite Forall_forall in P. auto.
    + split; [apply body_lang; apply lang_cat; eauto|]. apply lang_alt in Z as [Z|Z]; [right; apply vp_ext_lang; exact Z|left; apply lang_empty; exact Z].
  - intros (p & w0 & e & -> & P & B & Z). apply lang_cat. exists p, (w0 ++ e). split; [reflexivity|]. split.
    + apply star_lang. apply forallb_forall. intros c I. apply (means_ok _ _ c vp_k_means). auto.
    + apply body_lang in B. apply lang_cat in B as (x & y & -> & X & Y). rewrite <- app_assoc. apply cat3. exists x, y, e. split; [reflexivity|]. split; [exact X|]. split; [exact Y|]. apply lang_alt. destruct Z as [->|Z]; [right; constructor|left; apply vp_ext_lang; exact Z].
Qed.
Lemma text_two w : number_text w -> (2 <= length w)%nat.
Proof.
  intros [(a & b & -> & _)|(p & w0 & e & -> & _ & (x & y & -> & _ & L & _) & _)]; [cbn; lia|]. pose proof (filter_le decimal x). rewrite !app_length. lia.
Qed.
Theorem viable_iff s : isViablePhoneNumber s = true <-> number_text (runes s).
Proof.
  unfold isViablePhoneNumber. destruct (len s <? minLengthForNSN)%nat eqn:L.
  - split; [discriminate|]. intros T. apply text_two in T. pose proof (runes_short s). apply Nat.ltb_lt in L. unfold len, minLengthForNSN in L. unfold bytes in *. lia.
  - rewrite (anchored_match _ _ _ vp_shape) by (vm_compute; reflexivity). rewrite lang_cat. split.
    + intros (u & v & E & U & V). inversion V. subst v. rewrite app_nil_r in E. rewrite E. apply vp_lang. exact U.
    + intros T. exists (runes s), []. rewrite app_nil_r. split; [reflexivity|]. split; [apply vp_lang; exact T|constructor].
Qed.

(** * Cutting the extension off *)
Lemma cont_bytes b s c t : decode_rune (b :: s) = Some (c, t) -> exists w, s = w ++ t /\ forall x, In x w -> 128 <= x <= 191.
Proof.
  cbn [decode_rune]. destruct (b <? 128); [intros H; inv H; exists []; split; [reflexivity|intros x []]|]. destruct (in_rng 194 223 b).
  { destruct s as [|b1 s]; [intros H; inv H; exists []; split; [reflexivity|intros x []]|]. destruct (in_rng 128 191 b1) eqn:R; intros H; inv H; [|exists []; split; [reflexivity|intros x []]]. apply in_rng_iff in R.
    exists [b1]. split; [reflexivity|]. intros x [<-|[]]. exact R. }
  destruct (in_rng 224 239 b).
  { destruct s as [|b1 [|b2 s]]; try (intros H; inv H; exists []; split; [reflexivity|intros x []]). destruct (_ && _) eqn:R; intros H; inv H; [|exists []; split; [reflexivity|intros x []]].
    apply andb_true_iff in R as [R1 R2]. apply in_rng_iff in R1, R2. exists [b1; b2]. split; [reflexivity|]. destruct (b =? 224), (b =? 237); intros x [<-|[<-|[]]]; lia. }
  destruct (in_rng 240 244 b); [|intros H; inv H; exists []; split; [reflexivity|intros x []]].
  destruct s as [|b1 [|b2 [|b3 s]]]; try (intros H; inv H; exists []; split; [reflexivity|intros x []]). destruct (_ && _ && _) eqn:R; intros H; inv H; [|exists []; split; [reflexivity|intros x []]].
  apply andb_true_iff in R as [R R3]. apply andb_true_iff in R as [R1 R2]. apply in_rng_iff in R1, R2, R3. exists [b1; b2; b3]. split; [reflexivity|]. destruct (b =? 240), (b =? 244); intros x [<-|[<-|[<-|[]]]]; lia.
Qed.
Lemma decode_cont x s : 128 <= x <= 191 -> decode_rune (x :: s) = Some (65533, s).
Proof.
  intros R. cbn [decode_rune]. replace (x <? 128) with false by (symmetry; apply N.ltb_ge; lia).
  replace (in_rng 194 223 x) with false by (symmetry; apply in_rng_false; lia). replace (in_rng 224 239 x) with false by (symmetry; apply in_rng_false; lia). replace (in_rng 240 244 x) with false by (symmetry; apply in_rng_false; lia). reflexivity.
Qed.
Lemma bad_inside s c t i : decode_rune s = Some (c, t) -> (0 < i < length s - length t)%nat -> exists u, runes (skipn i s) = 65533 :: u.
Proof.
  intros D R. destruct s as [|b s]; [discriminate|]. destruct (cont_bytes _ _ _ _ D) as (w & -> & W). cbn [length] in R. rewrite app_length in R. destruct i as [|i]; [lia|]. cbn [skipn]. rewrite skipn_app.
  destruct (skipn i w) as [|x r] eqn:E; [apply (f_equal (@length N)) in E; rewrite skipn_length in E; cbn [length] in E; lia|].
  cbn [app]. eexists. apply runes_step. apply decode_cont. apply W. rewrite <- (firstn_skipn i w), E. apply in_or_app. right. left. auto.
Qed.
Lemma boundary_or_bad (s : bytes) : forall i, (i <= length s)%nat -> boundary s i \/ exists u, runes (skipn i s) = 65533 :: u.
Proof.
  induction s as [|s c t D IH] using runes_ind; intros i L; [cbn [length] in L; replace i with 0%nat by lia; left; constructor|].
  pose proof (decode_rune_lt _ _ _ D) as Lt. destruct i as [|i]; [left; constructor|]. destruct (Nat.lt_ge_cases (S i) (length s - length t)) as [H|H]; [right; eapply bad_inside; eauto; lia|].
  destruct (IH (S i - (length s - length t))%nat) as [B|(u & E)]; [lia| |].
  - left. replace (S i) with ((len s - len t) + (S i - (length s - length t)))%nat by (unfold len; lia). econstructor; eauto.
  - right. exists u. rewrite <- E. f_equal. destruct (decode_rune_spec _ _ _ D) as (w & -> & _). rewrite app_length in *. rewrite skipn_app. rewrite skipn_all2 by lia. cbn [app]. f_equal. lia.
Qed.
Lemma avoid_error : avoids 65533 ext_body = true. Proof. vm_compute. reflexivity. Qed.
Lemma avoid_newline : avoids 10 (re_ast validPhoneNumberPattern) = true. Proof. vm_cast_no_check (eq_refl true). Qed.
Lemma extension_boundary s i : extension_at s i -> boundary s i.
Proof.
  intros [L E]. destruct (boundary_or_bad s i L) as [B|(u & R)]; [exact B|]. exfalso. apply ext_body_lang in E. apply (avoids_ok 65533 _ _ E avoid_error). rewrite R. left. reflexivity.
Qed.
Lemma extension_derives s i : extension_at s i -> exists e cs, derives (re_ast extnPattern) i (skipn i s) [] e [] cs.
Proof.
  intros E. destruct E as [_ E]. apply ext_body_lang in E. apply (ends_lang (re_ast extnPattern) (runes (skipn i s))); [|exact ext_anchored|apply eats_all].
  rewrite ext_shape. rewrite <- (app_nil_r (runes (skipn i s))). constructor; [exact E|constructor].
Qed.
Lemma found_extension s m : re_find extnPattern s = Some m -> extension_at s (m_start m) /\ forall j, (j < m_start m)%nat -> ~ extension_at s j.
Proof.
  intros F. split.
  - pose proof (re_find_sound _ _ _ F) as (L1 & L2 & D & _). pose proof (ends_derives _ _ _ _ _ _ _ D ext_anchored) as E0. rewrite E0 in D. apply derives_lang in D as (w & E & L).
    split; [unfold len in *; lia|]. apply eats_runes in E. rewrite runes_nil, app_nil_r in E. rewrite E. apply ext_body_lang. rewrite ext_shape in L. apply lang_cat in L as (u & v & -> & U & V). inversion V. subst v. rewrite app_nil_r. exact U.
  - intros j Lj X. destruct (extension_derives s j X) as (e & cs & D). destruct (find_le _ _ _ _ _ _ (extension_boundary s j X) D) as (m' & F' & Lm). rewrite F in F'. inv F'. lia.
Qed.
Lemma not_found_extension s : re_find extnPattern s = None -> forall j, ~ extension_at s j.
Proof. intros F j X. destruct (extension_derives s j X) as (e & cs & D). destruct (find_le _ _ _ _ _ _ (extension_boundary s j X) D) as (m' & F' & _). congruence. Qed.
(** A match of the extension pattern has captured some digits. *)
Lemma captured_some s m : re_find extnPattern s = Some m -> exists e l, filter (fun g => negb (is_empty g)) (map (fun i => group_str s m (S i)) (seq 0 (re_ngroups extnPattern))) = e :: l.
Proof.
  intros F. pose proof (re_find_sound _ _ _ F) as (L1 & L2 & D & _). rewrite ext_shape in D. inversion D as [| |a0 b0 p0 s0 cs0 p1 s1 cs1 p2 s2 cs2 D1 D2| | | | | | |]. subst.
  destruct (ones _ _ _ _ _ _ _ D1 ext_one) as (n & q1 & q2 & t1 & t2 & u & v & w & E & R & E1 & E2 & E3 & A4 & A5 & _ & _ & Nv & _).
  inversion D2. subst.
  assert (G : exists g, In g (map (fun i => group_str s m (S i)) (seq 0 (re_ngroups extnPattern))) /\ negb (is_empty g) = true).
  { exists (group_str s m n). split; [apply in_map_iff; exists (n - 1)%nat; split; [f_equal; lia|apply in_seq; rewrite ext_groups; lia]|].
    unfold group_str, group. match goal with H : _ :: _ = m_caps m |- _ => rewrite <- H | H : m_caps m = _ :: _ |- _ => rewrite H end. cbn [assoc]. rewrite Nat.eqb_refl.
    assert (Lt : (length t2 < length t1)%nat). { destruct v as [|c v]; [congruence|]. inversion E2 as [|? ? ? ? ? Dc Ev]. subst. pose proof (decode_rune_lt _ _ _ Dc). assert (Q : forall s v t, eats s v t -> (length t <= length s)%nat) by (induction 1 as [|? ? ? ? ? Dx _ IH]; [lia|apply decode_rune_lt in Dx; lia]). apply Q in Ev. lia. }
    assert (Le : (length t1 <= length (skipn (m_start m) s))%nat). { assert (Q : forall s v t, eats s v t -> (length t <= length s)%nat) by (induction 1 as [|? ? ? ? ? Dx _ IH]; [lia|apply decode_rune_lt in Dx; lia]). apply Q in E1. exact E1. }
    rewrite skipn_length in *. destruct n as [|n]; [lia|]. cbv iota. unfold sub. destruct (firstn (q2 - q1) (skipn q1 s)) as [|x y] eqn:X; [|reflexivity]. apply (f_equal (@length N)) in X. rewrite firstn_length, skipn_length in X. cbn [length] in X. unfold len in *. lia. }
  destruct G as (g & I & Ng). destruct (filter _ _) as [|e l] eqn:X; [|eauto]. exfalso. assert (In g []) by (rewrite <- X; apply filter_In; auto). auto.
Qed.
Theorem main_part_iff s m : main_part s m <-> fst (maybeStripExtension s) = m.
Proof.
  unfold maybeStripExtension, main_part. destruct (re_find extnPattern s) as [g|] eqn:F.
  - destruct (found_extension s g F) as [X Y]. assert (U : forall i, extension_at s i -> (forall j, (j < i)%nat -> ~ extension_at s j) -> i = m_start g).
    { intros i A B. destruct (Nat.lt_trichotomy i (m_start g)) as [H|[H|H]]; [|exact H|]; exfalso; [apply (Y i); auto|apply (B (m_start g)); auto]. }
    destruct (captured_some s g F) as (e & l & ->). destruct (isViablePhoneNumber (firstn (m_start g) s)) eqn:V.
    + cbn [fst]. apply viable_iff in V. split.
      * intros [(i & A & B & -> & T)|(-> & A)]; [rewrite (U i A B); reflexivity|]. exfalso. apply (A (m_start g)); auto.
      * intros <-. left. exists (m_start g). auto.
    + cbn [fst]. assert (Nv : ~ number_text (runes (firstn (m_start g) s))) by (rewrite <- viable_iff; congruence). split.
      * intros [(i & A & B & -> & T)|(-> & A)]; [|reflexivity]. exfalso. rewrite (U i A B) in T. auto.
      * intros <-. right. split; [reflexivity|]. intros i A B. rewrite (U i A B). exact Nv.
  - cbn [fst]. pose proof (not_found_extension s F) as X. split.
    + intros [(i & A & _)|(-> & _)]; [destruct (X i A)|reflexivity].
    + intros <-. right. split; [reflexivity|]. intros i A. destruct (X i A).
Qed.
Lemma no_newline s : isViablePhoneNumber s = true -> ~ In 10 (runes s).
Proof.
  intros V. unfold isViablePhoneNumber in V. destruct (len s <? minLengthForNSN)%nat; [discriminate|]. apply (anchored_match _ _ _ vp_shape) in V; [|vm_compute; reflexivity]. apply (avoids_ok _ _ _ V).
  pose proof avoid_newline as A. rewrite vp_shape in A. cbn [avoids] in A. exact A.
Qed.
Theorem alpha_number s : IsAlphaNumber s = true <-> number_text (runes s) /\ exists m, main_part s m /\ (3 <= length (filter ascii_letter (runes m)))%nat.
Proof.
  unfold IsAlphaNumber. destruct (isViablePhoneNumber s) eqn:V; cbn [negb].
  - pose proof (no_newline s V) as Nl. pose proof V as T. apply viable_iff in T. rewrite alpha_iff. split.
    + intros [L _]. split; [exact T|]. eexists. split; [apply main_part_iff; reflexivity|exact L].
    + intros (_ & m & M & L). pose proof M as M'. apply main_part_iff in M'. rewrite M'. split; [exact L|]. destruct M as [(i & _ & _ & -> & Tm)|(-> & _)]; [|exact Nl]. apply no_newline. apply viable_iff. exact Tm.
  - split; [discriminate|]. intros [T _]. apply viable_iff in T. congruence.
Qed.
