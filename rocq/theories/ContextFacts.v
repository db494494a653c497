(** The phone-context parameter: the two regular expressions, the extraction, and the parser's use of it. *)
From Verif Require Import Base BaseFacts UnicodeTables UnicodeSpec Utf8 Utf8Facts Regex RegexSpec RegexFacts LangFacts Consts Types Normalize NormalizeSpec NormalizeFacts Validate Format Parse MetaSpec
  ParseSpec ParseFacts ParseMore.

(** * Classes *)
Definition letters : list N := bs "abcdefghijklmnopqrstuvwxyzABCDEFGHIJKLMNOPQRSTUVWXYZ".
Lemma letters_spec c : existsb (N.eqb c) letters = ascii_letter c.
Proof.
  assert (F : forallb (fun n => eqb (existsb (N.eqb (N.of_nat n)) letters) (ascii_letter (N.of_nat n))) (seq 0 128) = true) by (vm_compute; reflexivity).
  destruct (N.lt_ge_cases c 128) as [L|L].
  - rewrite forallb_forall in F. specialize (F (N.to_nat c)). rewrite N2Nat.id in F. apply eqb_prop, F. apply in_seq. lia.
  - transitivity false; [|symmetry; unfold ascii_letter; apply orb_false_iff; split; apply in_rng_false; lia].
    apply not_true_is_false. intros H. apply existsb_exists in H as (x & I & E). apply N.eqb_eq in E. subst x.
    assert (G : forallb (fun x => x <? 128) letters = true) by reflexivity. eapply forallb_forall in G; [|exact I]. apply N.ltb_lt in G. lia.
Qed.
Lemma items_singles l r c : items_match (map (fun x => CR x x) l ++ r) c = existsb (N.eqb c) l || items_match r c.
Proof.
  unfold items_match. rewrite existsb_app. f_equal. induction l as [|x l IH]; [reflexivity|]. cbn [map existsb]. rewrite IH. f_equal. cbn [citem_match]. unfold in_rng.
  destruct (N.eqb_spec c x); subst; lia.
Qed.
Lemma nd_decimal c : in_table tab_Nd c = decimal c.
Proof.
  unfold decimal. rewrite <- char_digit_spec. unfold char_digit. destruct (is_digit c) eqn:D.
  - apply is_digit_iff in D. assert (X : c = 48 \/ c = 49 \/ c = 50 \/ c = 51 \/ c = 52 \/ c = 53 \/ c = 54 \/ c = 55 \/ c = 56 \/ c = 57) by lia.
    repeat destruct X as [->|X]; [..|subst]; vm_compute; reflexivity.
  - destruct (digit_in tab_Nd c) eqn:E; [apply digit_in_iff; eauto|]. destruct (in_table tab_Nd c) eqn:T; [|reflexivity]. apply digit_in_iff in T as (d & T). congruence.
Qed.

(** * The two languages *)
Lemma lang_cat a b w : lang (RCat a b) w <-> exists u v, w = u ++ v /\ lang a u /\ lang b v.
Proof. split; [intros H; inv H; eauto|intros (u & v & -> & A & B); constructor; auto]. Qed.
Lemma lang_cls k w : lang (RClass k) w <-> exists c, w = [c] /\ cls_match k c = true.
Proof. split; [intros H; inv H; eauto|intros (c & -> & H); constructor; auto]. Qed.
Lemma lang_alt a b w : lang (RAlt a b) w <-> lang a w \/ lang b w.
Proof. split; [intros H; inv H; auto|intros [H|H]; [apply L_alt_l|apply L_alt_r]; auto]. Qed.
Lemma lang_grp n a w : lang (RGroup n a) w <-> lang a w.
Proof. split; [intros H; inv H; auto|constructor; auto]. Qed.
Lemma lang_emp w : lang REmpty w <-> w = [].
Proof. split; [intros H; inv H; auto|intros ->; constructor]. Qed.
Lemma lang_end w : lang REnd w <-> w = [].
Proof. split; [intros H; inv H; auto|intros ->; constructor]. Qed.
Lemma star_all g a P : (forall w, lang a w -> forallb P w = true) -> (forall c, P c = true -> lang a [c]) -> forall w, lang (RStar g a) w <-> forallb P w = true.
Proof.
  intros H1 H2 w. split.
  - intros L. remember (RStar g a) as r eqn:E. induction L; inv E; [reflexivity|]. rewrite forallb_app. apply andb_true_iff. auto.
  - induction w as [|c w IH]; intros F; [constructor|]. cbn [forallb] in F. apply andb_true_iff in F as [F1 F2]. apply (L_star_more g a [c] w); auto.
Qed.
Lemma star_join g a v w : lang (RStar g a) v -> lang (RStar g a) w -> lang (RStar g a) (v ++ w).
Proof. intros L. remember (RStar g a) as r eqn:E. induction L; inv E; intros; auto. rewrite <- app_assoc. constructor; auto. Qed.
Lemma star_parts g a w : lang (RStar g a) w <-> exists l, w = concat l /\ Forall (lang a) l.
Proof.
  split.
  - intros L. remember (RStar g a) as r eqn:E. induction L; inv E; [exists []; auto|]. destruct IHL2 as (l & -> & F); auto. exists (v :: l). auto.
  - intros (l & -> & F). induction F; simpl; [constructor|]. apply L_star_more; auto.
Qed.

Definition k_nd : cls := {| cneg := false; citems := [CU UNd]; cfold := false |}.
Definition k_vis : cls := {| cneg := false; citems := [CR 45 45; CR 46 46; CR 40 40; CR 41 41]; cfold := false |}.
Definition k_one (c : N) : cls := {| cneg := false; citems := [CR c c]; cfold := false |}.
Definition k_let : cls := {| cneg := false; citems := map (fun x => CR x x) letters ++ []; cfold := false |}.
Definition k_aln : cls := {| cneg := false; citems := map (fun x => CR x x) letters ++ [CU UNd]; cfold := false |}.
Lemma k_nd_ok c : cls_match k_nd c = decimal c.
Proof. unfold cls_match, k_nd, items_match. cbn [cneg cfold citems existsb citem_match ucat_table]. rewrite orb_false_r. apply nd_decimal. Qed.
Lemma k_vis_ok c : cls_match k_vis c = visual c.
Proof. unfold cls_match, k_vis. cbn [cneg cfold citems]. change [CR 45 45; CR 46 46; CR 40 40; CR 41 41] with (map (fun x => CR x x) (bs "-.()") ++ []). rewrite items_singles. cbn. apply orb_false_r. Qed.
Lemma k_one_ok a c : cls_match (k_one a) c = (c =? a).
Proof. unfold cls_match, k_one. cbn [cneg cfold citems]. change [CR a a] with (map (fun x => CR x x) [a] ++ []). rewrite items_singles. cbn. rewrite !orb_false_r. reflexivity. Qed.
Lemma k_let_ok c : cls_match k_let c = ascii_letter c.
Proof. unfold cls_match, k_let. cbn [cneg cfold citems]. rewrite items_singles, letters_spec. cbn. apply orb_false_r. Qed.
Lemma k_aln_ok c : cls_match k_aln c = alnum c.
Proof. unfold cls_match, k_aln. cbn [cneg cfold citems]. rewrite items_singles, letters_spec. unfold alnum. f_equal. exact (k_nd_ok c). Qed.

Definition r_digs (n : nat) : regex := RStar true (RGroup n (RAlt (RClass k_nd) (RAlt (RCat (RClass k_vis) REmpty) REmpty))).
Definition r_global : regex := RCat (RClass (k_one 43)) (RCat (r_digs 1) (RCat (RClass k_nd) (RCat (r_digs 2) REnd))).
Lemma global_ast : re_ast rfc3966GlobalNumberDigitsPattern = RCat RBegin r_global.
Proof. vm_compute. reflexivity. Qed.
Lemma digs_ok n w : lang (r_digs n) w <-> forallb (fun c => decimal c || visual c) w = true.
Proof.
  apply star_all.
  - intros v H. rewrite lang_grp, lang_alt, lang_cls, lang_alt, lang_cat, lang_emp in H. destruct H as [(c & -> & H)|[(u & x & -> & H1 & H2)| ->]]; [| |reflexivity].
    + rewrite k_nd_ok in H. cbn [forallb]. rewrite H. reflexivity.
    + rewrite lang_emp in H2. subst. rewrite lang_cls in H1. destruct H1 as (c & -> & H1). rewrite k_vis_ok in H1. cbn [forallb app]. rewrite H1, orb_true_r. reflexivity.
  - intros c H. apply orb_true_iff in H. constructor. destruct H as [H|H]; [apply L_alt_l; constructor; rewrite k_nd_ok; auto|].
    apply L_alt_r, L_alt_l. apply (L_cat _ _ [c] []); [|constructor]. constructor. rewrite k_vis_ok. auto.
Qed.
Lemma global_ok s : re_match rfc3966GlobalNumberDigitsPattern s = true <-> global_context (runes s).
Proof.
  rewrite (anchored_match _ r_global _ global_ast) by reflexivity. unfold r_global. generalize (runes s) as w. intros w. rewrite lang_cat. split.
  - intros (a & b & -> & A & B). rewrite lang_cls in A. destruct A as (c & -> & A). rewrite k_one_ok in A. apply N.eqb_eq in A. subst c.
    rewrite lang_cat in B. destruct B as (x & y & -> & X & B). rewrite lang_cat in B. destruct B as (d & z & -> & D & B). rewrite lang_cat in B. destruct B as (z1 & z2 & -> & Z1 & Z2).
    rewrite lang_end in Z2. subst. rewrite lang_cls in D. destruct D as (e & -> & D). rewrite k_nd_ok in D. rewrite digs_ok in X, Z1.
    exists (x ++ [e] ++ z1 ++ []). split; [reflexivity|]. rewrite app_nil_r. rewrite !forallb_app, !existsb_app. cbn [forallb existsb]. rewrite X, Z1, D. split; [reflexivity|]. rewrite orb_true_r. reflexivity.
  - intros (x & -> & F & E). apply existsb_exists in E as (d & I & D). apply in_split in I as (x1 & x2 & ->). rewrite forallb_app in F. cbn [forallb] in F. apply andb_true_iff in F as [F1 F2]. apply andb_true_iff in F2 as [_ F2].
    exists [43], (x1 ++ [d] ++ x2 ++ []). split; [rewrite app_nil_r; reflexivity|]. split; [constructor; reflexivity|]. repeat apply L_cat; [apply digs_ok; auto|constructor; rewrite k_nd_ok; auto|apply digs_ok; auto|constructor].
Qed.

Definition r_tail (n m : nat) : regex := RStar true (RGroup n (RCat (RStar true (RGroup m (RClass (k_one 45)))) (RClass k_aln))).
Definition r_domain : regex :=
  RCat (RStar true (RGroup 1 (RCat (RCat (RClass k_aln) (RStar true (RClass k_aln))) (RCat (r_tail 2 3) (RClass (k_one 46))))))
    (RCat (RCat (RClass k_let) (RStar true (RClass k_let))) (RCat (r_tail 4 5) (RCat (RAlt (RCat (RClass (k_one 46)) REmpty) REmpty) REnd))).
Lemma domain_ast : re_ast rfc3966DomainnamePattern = RCat RBegin r_domain.
Proof. vm_compute. reflexivity. Qed.
Definition lab (c : N) : bool := alnum c || (c =? 45).
Lemma last_cons {A} (x : A) l d d' : l <> [] -> last (x :: l) d = last l d'.
Proof. revert x; induction l as [|y l IH]; intros x H; [congruence|]. destruct l; [reflexivity|]. change (last (x :: y :: a :: l) d) with (last (y :: a :: l) d). rewrite IH by discriminate. reflexivity. Qed.
Lemma last_any {A} (l : list A) d d' : l <> [] -> last l d = last l d'.
Proof. destruct l; [congruence|]. intros _. destruct l; [reflexivity|]. rewrite (last_cons a (a0 :: l) d d') by discriminate. rewrite (last_cons a (a0 :: l) d' d') by discriminate. reflexivity. Qed.
Lemma last_app' {A} (a b : list A) d : b <> [] -> last (a ++ b) d = last b d.
Proof. induction a as [|x a IH]; intros H; [reflexivity|]. change ((x :: a) ++ b) with (x :: (a ++ b)). rewrite (last_cons _ _ d d); auto. destruct a, b; simpl; congruence. Qed.
Definition tail_ok (y : list N) : Prop := forallb lab y = true /\ (y = [] \/ alnum (last y 0) = true).
Lemma hyph_ok n w : lang (RStar true (RGroup n (RClass (k_one 45)))) w <-> forallb (N.eqb 45) w = true.
Proof.
  apply star_all.
  - intros v H. rewrite lang_grp, lang_cls in H. destruct H as (c & -> & H). rewrite k_one_ok in H. cbn. rewrite N.eqb_sym, H. reflexivity.
  - intros c H. do 2 constructor. rewrite k_one_ok, N.eqb_sym. auto.
Qed.
Lemma tail_iff n m y : lang (r_tail n m) y <-> tail_ok y.
Proof.
  split.
  - intros L. unfold r_tail in L. apply star_parts in L as (l & -> & F). induction F as [|x l X F IH]; [split; auto|]. destruct IH as [I1 I2]. cbn [concat].
    rewrite lang_grp, lang_cat in X. destruct X as (h & a & -> & Hh & Ha). rewrite hyph_ok in Hh. rewrite lang_cls in Ha. destruct Ha as (c & -> & Ha). rewrite k_aln_ok in Ha.
    split.
    + rewrite !forallb_app. cbn [forallb]. unfold lab at 2. rewrite Ha, I1. rewrite !andb_true_r. apply forallb_forall. intros z Hz. eapply forallb_forall in Hh; eauto. unfold lab. rewrite N.eqb_sym, Hh. apply orb_true_r.
    + right. destruct I2 as [->|I2]; [rewrite app_nil_r, last_app' by discriminate; exact Ha|]. destruct (concat l) eqn:E; [rewrite app_nil_r, last_app' by discriminate; exact Ha|]. rewrite last_app' by discriminate. exact I2.
  - intros [F L]. destruct y as [|c y]; [constructor|]. destruct L as [L|L]; [discriminate|].
    assert (G : exists v u, c :: y = v ++ u /\ lang (RGroup n (RCat (RStar true (RGroup m (RClass (k_one 45)))) (RClass k_aln))) v /\ lang (r_tail n m) u).
    { revert c F L. induction y as [|d y IH]; intros c F L.
      - exists [c], []. split; [reflexivity|]. split; [|constructor]. constructor. apply (L_cat _ _ [] [c]); [constructor|]. constructor. rewrite k_aln_ok. exact L.
      - rewrite (last_cons _ _ 0 0) in L by discriminate. cbn [forallb] in F. apply andb_true_iff in F as [F1 F2]. destruct (IH d F2 L) as (v & u & E & V & U).
        unfold lab in F1. apply orb_true_iff in F1 as [F1|F1].
        + exists [c], (d :: y). split; [reflexivity|]. split; [constructor; apply (L_cat _ _ [] [c]); [constructor|]; constructor; rewrite k_aln_ok; exact F1|]. rewrite E. unfold r_tail. apply L_star_more; auto.
        + apply N.eqb_eq in F1. subst c. exists (45 :: v), u. split; [rewrite E; reflexivity|]. split; [|exact U]. rewrite lang_grp, lang_cat in V. destruct V as (h & a & -> & Hh & Ha).
          constructor. change (45 :: h ++ a) with ((45 :: h) ++ a). constructor; auto. rewrite hyph_ok in *. cbn. exact Hh. }
    destruct G as (v & u & -> & V & U). unfold r_tail. apply L_star_more; auto.
Qed.
Lemma lab_iff k n m P (OK : forall c, cls_match k c = P c) (IN : forall c, P c = true -> alnum c = true) x :
  (exists u v, x = u ++ v /\ lang (RCat (RClass k) (RStar true (RClass k))) u /\ lang (r_tail n m) v) <-> label x /\ exists a, hd_error x = Some a /\ P a = true.
Proof.
  assert (S : forall w, lang (RStar true (RClass k)) w <-> forallb P w = true).
  { apply star_all; [intros v H; rewrite lang_cls in H; destruct H as (c & -> & H); rewrite OK in H; cbn; rewrite H; reflexivity|intros c H; constructor; rewrite OK; auto]. }
  split.
  - intros (u & v & -> & U & V). rewrite lang_cat in U. destruct U as (a & b & -> & A & B). rewrite lang_cls in A. destruct A as (c & -> & A). rewrite OK in A. rewrite S in B.
    apply tail_iff in V as [V1 V2]. split; [|exists c; auto]. exists c. split; [reflexivity|]. split; [auto|].
    assert (W : forall z, In z (c :: b) -> alnum z = true). { intros z [->|Z]; [auto|]. apply IN. eapply forallb_forall in B; eauto. }
    split.
    + change (fun c0 : N => alnum c0 || (c0 =? 45)) with lab. rewrite forallb_app, V1, andb_true_r. apply forallb_forall. intros z Hz. unfold lab. rewrite W by exact Hz. reflexivity.
    + destruct v as [|d v]; [|rewrite last_app' by discriminate; destruct V2 as [V2|V2]; [discriminate|]; rewrite (last_any _ _ 0) by discriminate; exact V2].
      rewrite app_nil_r. apply W. change ([c] ++ b) with (c :: b).
      assert (X : forall l (d : N), l <> [] -> In (last l d) l); [|apply X; discriminate]. clear. intros l d. induction l as [|x l IH]; [congruence|]. intros _. destruct l; [left; reflexivity|]. rewrite (last_cons _ _ d d) by discriminate. right. apply IH. discriminate.
  - intros [(a & Ha & Aa & F & L) (a' & Ha' & Pa)]. rewrite Ha in Ha'. inv Ha'. destruct x as [|y x]; [discriminate|]. inv Ha. exists [a'], x. split; [reflexivity|].
    split; [apply (L_cat _ _ [a'] []); [constructor; rewrite OK; auto|constructor]|]. apply tail_iff. cbn [forallb] in F. apply andb_true_iff in F as [_ F]. split; [exact F|].
    destruct x as [|z x]; [left; reflexivity|right]. rewrite (last_cons _ _ a' 0) in L by discriminate. exact L.
Qed.
Lemma domain_ok s : re_match rfc3966DomainnamePattern s = true <-> domain_context (runes s).
Proof.
  rewrite (anchored_match _ r_domain _ domain_ast) by reflexivity. unfold r_domain. generalize (runes s) as w. intros w. rewrite lang_cat. unfold domain_context.
  assert (LL : forall l, lang (RGroup 1 (RCat (RCat (RClass k_aln) (RStar true (RClass k_aln))) (RCat (r_tail 2 3) (RClass (k_one 46))))) l <-> exists x, l = x ++ [46] /\ label x).
  { intros l. rewrite lang_grp, lang_cat. split.
    - intros (u & v & -> & U & V). rewrite lang_cat in V. destruct V as (v1 & v2 & -> & V1 & V2). rewrite lang_cls in V2. destruct V2 as (c & -> & V2). rewrite k_one_ok in V2. apply N.eqb_eq in V2. subst c.
      exists (u ++ v1). split; [apply app_assoc|]. apply (lab_iff k_aln 2 3 alnum k_aln_ok (fun c H => H)). eauto.
    - intros (x & -> & X). assert (Y : label x /\ exists a, hd_error x = Some a /\ alnum a = true) by (split; auto; destruct X as (a & ? & ? & _); eauto).
      apply (lab_iff k_aln 2 3 alnum k_aln_ok (fun c H => H)) in Y as (u & v & -> & U & V). exists u, (v ++ [46]). split; [rewrite app_assoc; reflexivity|]. split; [exact U|]. constructor; [exact V|]. constructor. reflexivity. }
  assert (IN : forall c, ascii_letter c = true -> alnum c = true) by (intros c H; unfold alnum; rewrite H; reflexivity).
  split.
  - intros (a & b & -> & A & B). apply star_parts in A as (l & -> & F). rewrite lang_cat in B. destruct B as (u & b1 & -> & U & B). rewrite lang_cat in B. destruct B as (v & b2 & -> & V & B).
    rewrite lang_cat in B. destruct B as (dot & e & -> & D & E). rewrite lang_end in E. subst e. rewrite app_nil_r.
    assert (T : label (u ++ v) /\ exists a, hd_error (u ++ v) = Some a /\ ascii_letter a = true) by (apply (lab_iff k_let 4 5 ascii_letter k_let_ok IN); eauto). destruct T as [T1 T2].
    assert (P : exists ls, l = map (fun x => x ++ [46]) ls /\ Forall label ls).
    { clear -F LL. induction F as [|x l X F (ls & -> & IH)]; [exists []; auto|]. apply LL in X as (x' & -> & X). exists (x' :: ls). auto. }
    destruct P as (ls & -> & P). exists ls, (u ++ v), dot. split; [rewrite <- app_assoc; reflexivity|]. split; [exact P|]. split; [exact T1|]. split; [exact T2|].
    rewrite lang_alt, lang_cat, lang_emp in D. destruct D as [(x & y & -> & X & Y)| ->]; [|auto]. rewrite lang_emp in Y. rewrite lang_cls in X. destruct X as (c & -> & X). rewrite k_one_ok in X. apply N.eqb_eq in X. subst. auto.
  - intros (ls & top & dot & -> & P & T1 & T2 & D). assert (T : label top /\ exists a, hd_error top = Some a /\ ascii_letter a = true) by auto.
    apply (lab_iff k_let 4 5 ascii_letter k_let_ok IN) in T as (u & v & -> & U & V). exists (concat (map (fun x => x ++ [46]) ls)), (u ++ v ++ dot ++ []). split; [rewrite app_nil_r, <- app_assoc; reflexivity|].
    split; [apply star_parts; eexists; split; [reflexivity|]; apply Forall_map; eapply Forall_impl; [|exact P]; intros x X; apply LL; eauto|].
    repeat apply L_cat; auto; [|constructor]. destruct D as [-> | ->]; [apply L_alt_r; constructor|]. apply L_alt_l. apply (L_cat _ _ [46] []); constructor; reflexivity.
Qed.
Lemma context_ok ctx : isPhoneContextValid ctx = true <-> valid_context ctx.
Proof.
  unfold isPhoneContextValid, valid_context. rewrite andb_true_iff, orb_true_iff, global_ok, domain_ok. split; [tauto|]. intros H. split; [|exact H].
  destruct ctx; [|reflexivity]. exfalso. destruct H as [(x & X & _)|(ls & top & dot & E & _ & _ & (a & T & _) & _)]; [rewrite runes_nil in X; discriminate|].
  rewrite runes_nil in E. symmetry in E. apply app_eq_nil in E as [_ E]. apply app_eq_nil in E as [-> _]. discriminate.
Qed.

(** * Where the context is *)
Lemma first_index s before ctx after : first_context s before ctx after ->
  index_of s rfc3966PhoneContext = Some (length before) /\ extractPhoneContext s (Some (length before)) = ctx.
Proof.
  intros (E & F & Nc & A). change (bs ";phone-context=") with rfc3966PhoneContext in *.
  assert (I : index_of s rfc3966PhoneContext = Some (length before)).
  { assert (P : has_prefix (skipn (length before) s) rfc3966PhoneContext = true).
    { rewrite E, skipn_app, skipn_all, Nat.sub_diag. rewrite skipn_O. apply (has_prefix_app rfc3966PhoneContext). }
    destruct (index_of s rfc3966PhoneContext) as [i|] eqn:X; [|pose proof (index_of_none _ _ X (length before)); congruence].
    f_equal. pose proof (index_of_some _ _ _ X) as (t & T & L). apply F in T as T1. rewrite firstn_length in T1. destruct (Nat.lt_trichotomy i (length before)) as [G|[G|G]]; [lia|auto|].
    pose proof (index_of_first _ _ _ X _ G). congruence. }
  split; [exact I|]. unfold extractPhoneContext. set (st := (length before + len rfc3966PhoneContext)%nat).
  assert (S : skipn st s = ctx ++ after). { unfold st. rewrite E, app_assoc, skipn_app, skipn_all2 by (rewrite app_length; unfold len; lia). rewrite app_length. unfold len. rewrite Nat.sub_diag. reflexivity. }
  destruct (len s <=? st)%nat eqn:L.
  - apply Nat.leb_le in L. rewrite skipn_all2 in S by (unfold len in L; lia). symmetry in S. apply app_eq_nil in S as [-> _]. reflexivity.
  - rewrite S. destruct (index_byte (ctx ++ after) 59) as [e|] eqn:X.
    + apply index_byte_some in X as (a & b & X & La & Na). assert (a = ctx).
      { destruct A as [->|(t & ->)].
        - exfalso. apply Nc. rewrite app_nil_r in X. rewrite X. apply in_or_app. right. left. reflexivity.
        - clear -X Na Nc. revert ctx X Nc. induction a as [|y a IH]; intros [|z ctx] X Nc; simpl in X; auto; inv X; [exfalso; apply Nc; left; auto|exfalso; apply Na; left; auto|].
          f_equal. apply IH; auto; intros I; [apply Na|apply Nc]; right; auto. }
      subst a. unfold sub. rewrite S. replace (e + st - st)%nat with (length ctx) by lia. rewrite firstn_app, firstn_all, Nat.sub_diag. simpl. apply app_nil_r.
    + apply index_byte_none in X. destruct A as [->|(t & ->)]; [apply app_nil_r|]. exfalso. apply X. apply in_or_app. right. left. reflexivity.
Qed.
Lemma context_exists s a b : s = a ++ bs ";phone-context=" ++ b -> exists before ctx after, first_context s before ctx after.
Proof.
  intros E. destruct (index_of s (bs ";phone-context=")) as [i|] eqn:X.
  - pose proof (index_of_some _ _ _ X) as (t & T & L). assert (Sp : exists ctx after, t = ctx ++ after /\ ~ In 59 ctx /\ (after = [] \/ exists u, after = 59 :: u)).
    { destruct (index_byte t 59) as [e|] eqn:Y; [apply index_byte_some in Y as (x & y & -> & _ & Nx); exists x, (59 :: y); eauto|apply index_byte_none in Y; exists t, []; rewrite app_nil_r; auto]. }
    destruct Sp as (ctx & after & -> & Nc & A). exists (firstn i s), ctx, after. split; [exact T|]. split; [|auto]. intros a' b' E'.
    rewrite firstn_length. destruct (Nat.le_gt_cases i (length a')) as [G|G]; [lia|]. pose proof (index_of_first _ _ _ X _ G) as Y.
    rewrite E', skipn_app, skipn_all, Nat.sub_diag in Y. rewrite skipn_O in Y. rewrite app_nil_l, has_prefix_app in Y. discriminate.
  - exfalso. pose proof (index_of_none _ _ X (length a)) as Y. rewrite E, skipn_app, skipn_all, Nat.sub_diag in Y. rewrite skipn_O in Y. rewrite app_nil_l, has_prefix_app in Y. discriminate.
Qed.

(** * Extracting from a clean text changes nothing *)
Lemma decode_app s c t d : decode_rune s = Some (c, t) -> (forall x, hd_error d = Some x -> x < 128) -> decode_rune (s ++ d) = Some (c, t ++ d).
Proof.
  intros D A. destruct s as [|b0 s]; [discriminate|]. cbn [decode_rune app] in *. destruct (b0 <? 128); [inv D; reflexivity|].
  assert (Lo : forall x, hd_error d = Some x -> forall lo hi, 128 <= lo -> in_rng lo hi x = false) by (intros x X lo hi Hl; apply A in X; apply in_rng_false; lia).
  assert (G : forall b : N, 128 <= (if b =? 224 then 160 else 128) /\ 128 <= (if b =? 240 then 144 else 128)) by (intros b; destruct (b =? 224), (b =? 240); lia).
  destruct (in_rng 194 223 b0).
  { destruct s as [|b1 s]; cbn [app]; [inv D; destruct d as [|x d]; [reflexivity|]; rewrite (Lo x) by (reflexivity || lia); reflexivity|]. destruct (in_rng 128 191 b1); inv D; reflexivity. }
  destruct (in_rng 224 239 b0).
  { destruct s as [|b1 [|b2 s]]; cbn [app].
    - inv D. destruct d as [|x [|y d]]; try reflexivity. rewrite (Lo x) by (reflexivity || apply G). reflexivity.
    - inv D. destruct d as [|x d]; try reflexivity. rewrite (Lo x eq_refl 128 191) by lia. rewrite andb_false_r. reflexivity.
    - destruct (_ && _); inv D; reflexivity. }
  destruct (in_rng 240 244 b0); [|inv D; reflexivity].
  destruct s as [|b1 [|b2 [|b3 s]]]; cbn [app].
  - inv D. destruct d as [|x [|y [|z d]]]; try reflexivity. rewrite (Lo x) by (reflexivity || apply G). reflexivity.
  - inv D. destruct d as [|x [|y d]]; try reflexivity. rewrite (Lo x eq_refl 128 191) by lia. rewrite andb_false_r. reflexivity.
  - inv D. destruct d as [|x d]; try reflexivity. rewrite (Lo x eq_refl 128 191) by lia. rewrite andb_false_r. reflexivity.
  - destruct (_ && _ && _); inv D; reflexivity.
Qed.
Lemma runes_app_ascii (s : bytes) d : ascii d -> runes (s ++ d) = runes s ++ d.
Proof.
  intros A. induction s as [|s c t D IH] using runes_ind; [apply runes_ascii; auto|]. rewrite (runes_step _ _ _ D). simpl. rewrite <- IH. apply runes_step. apply decode_app; auto.
  intros x X. destruct d; [discriminate|]. inv X. inv A. auto.
Qed.
Lemma boundary_runes s i : boundary s i -> exists u, runes s = u ++ runes (skipn i s).
Proof.
  induction 1 as [s|s c t i D B (u & IH)]; [exists []; reflexivity|]. exists (c :: u). rewrite (runes_step _ _ _ D), IH. simpl. do 3 f_equal.
  pose proof (decode_rune_spec _ _ _ D) as (w & -> & _). unfold len. rewrite app_length. replace (length w + length t - length t + i)%nat with (length w + i)%nat by lia.
  rewrite <- skipn_add, skipn_app, skipn_all, Nat.sub_diag. reflexivity.
Qed.
(** Everything a match reads is in the text. *)
Lemma match_reads x s m : re_find x s = Some m -> exists u w v, runes s = u ++ w ++ v /\ lang (re_ast x) w /\ v = runes (skipn (m_end m) s).
Proof.
  intros H. pose proof (re_find_boundary _ _ _ H) as B. apply re_find_sound in H as (_ & _ & D & _). apply derives_lang in D as (w & E & L). apply boundary_runes in B as (u & B).
  apply eats_runes in E. exists u, w. eexists. split; [rewrite B, E; reflexivity|]. auto.
Qed.
Definition start_cls : cls := Eval vm_compute in match re_ast validStartCharPattern with RClass k => k | _ => any_not_nl end.
Lemma start_ok c : cls_match start_cls c = (c =? 43) || (c =? 65291) || decimal c.
Proof.
  rewrite <- nd_decimal. unfold cls_match, start_cls. cbn [cneg cfold citems]. unfold items_match. cbn [existsb citem_match ucat_table]. unfold in_rng. rewrite orb_false_r.
  replace ((43 <=? c) && (c <=? 43)) with (c =? 43) by lia. replace ((65291 <=? c) && (c <=? 65291)) with (c =? 65291) by lia. apply orb_assoc.
Qed.
Definition end_cls : cls := Eval vm_compute in match re_ast unwantedEndCharPattern with RCat (RCat (RClass k) _) _ => k | _ => any_not_nl end.
Lemma end_digit c : 48 <= c <= 57 -> cls_match end_cls c = false.
Proof.
  intros H. assert (X : c = 48 \/ c = 49 \/ c = 50 \/ c = 51 \/ c = 52 \/ c = 53 \/ c = 54 \/ c = 55 \/ c = 56 \/ c = 57) by lia.
  repeat destruct X as [->|X]; [..|subst]; vm_compute; reflexivity.
Qed.
Definition clean (t : bytes) : Prop := exists c u, decode_rune t = Some (c, u) /\ (c = 43 \/ c = 65291 \/ decimal c = true).
Lemma find_start t : clean t -> exists m, re_find validStartCharPattern t = Some m /\ m_start m = 0%nat.
Proof.
  intros (c & u & D & P). assert (R : rmatch (re_ast validStartCharPattern) final 0 t [] <> None).
  { change (re_ast validStartCharPattern) with (RClass start_cls). eapply rmatch_complete with (k := final); [|discriminate]. econstructor; [exact D|].
    rewrite start_ok. destruct P as [-> | [-> | P]]; [reflexivity|reflexivity|rewrite P; apply orb_true_r]. }
  unfold re_find, find_from. cbn [skipn]. destruct (len t - 0)%nat; cbn [search]; destruct (rmatch (re_ast validStartCharPattern) final 0 t []) as [[e cs]|]; try congruence; eexists; split; reflexivity.
Qed.
Lemma possible_clean x d : clean (x ++ d) -> all_digits d = true -> d <> [] -> ~ In 92 (runes x) -> ~ In 47 (runes x) -> extractPossibleNumber (x ++ d) = x ++ d.
Proof.
  intros Cl Dd Ne N1 N2. unfold extractPossibleNumber. destruct (find_start _ Cl) as (m & -> & ->). rewrite skipn_O.
  pose proof (runes_app_ascii x d (digits_ascii _ Dd)) as R.
  assert (U : re_find unwantedEndCharPattern (x ++ d) = None).
  { destruct (re_find unwantedEndCharPattern (x ++ d)) as [m2|] eqn:F; [exfalso|reflexivity]. pose proof (re_find_boundary _ _ _ F) as B. apply re_find_sound in F as (_ & _ & D & _).
    change (re_ast unwantedEndCharPattern) with (RCat (RCat (RClass end_cls) (RStar true (RClass end_cls))) REnd) in D. inv D.
    match goal with H : derives REnd _ _ _ _ _ _ |- _ => inv H end. match goal with H : derives (RCat _ _) _ _ _ _ ?q _, E : [] = _ |- _ => try rewrite <- E in H end.
    match goal with H : derives (RCat _ _) _ _ _ _ _ _ |- _ => apply derives_lang in H as (w & E & L) end.
    apply boundary_runes in B as (u & B). apply eats_runes in E. rewrite E in B. rewrite R in B.
    assert (Lw : w <> [] /\ forall c, In c w -> cls_match end_cls c = true).
    { rewrite lang_cat in L. destruct L as (a & b & -> & A & Lb). rewrite lang_cls in A. destruct A as (c & -> & A). split; [discriminate|].
      assert (S : forallb (cls_match end_cls) b = true).
      { apply (star_all true (RClass end_cls) (cls_match end_cls)) in Lb; auto; [intros v V; rewrite lang_cls in V; destruct V as (z & -> & V); cbn [forallb]; rewrite V; reflexivity|intros z Z; constructor; auto]. }
      intros z [<-|Z]; auto. eapply forallb_forall in S; eauto. }
    destruct Lw as [W1 W2].
    assert (Z : In (last d 0) w).
    { assert (Lx : last (runes x ++ d) 0 = last d 0) by (apply last_app'; auto). rewrite B in Lx. rewrite ?runes_nil, ?app_nil_r in Lx. rewrite last_app' in Lx by auto. rewrite <- Lx.
      clear -W1. induction w as [|z w IH]; [congruence|]. destruct w; [left; reflexivity|]. rewrite (last_cons _ _ 0 0) by discriminate. right. apply IH. discriminate. }
    apply W2 in Z. rewrite end_digit in Z; [discriminate|]. apply (all_digits_In d); auto. clear -Ne. induction d as [|z w IH]; [congruence|]. destruct w; [left; reflexivity|]. rewrite (last_cons _ _ 0 0) by discriminate. right. apply IH. discriminate. }
  rewrite U. destruct (re_find secondNumberStartPattern (x ++ d)) as [m3|] eqn:F; [exfalso|reflexivity].
  apply match_reads in F as (u & w & v & E & L & _). change (re_ast secondNumberStartPattern) with (RCat (RClass {| cneg := false; citems := map (fun x => CR x x) [92; 47] ++ []; cfold := false |})
    (RCat (RStar true (RClass (k_one 32))) (RClass (k_one 120)))) in L.
  rewrite lang_cat in L. destruct L as (a & b & -> & A & _). rewrite lang_cls in A. destruct A as (c & -> & A). unfold cls_match in A. cbn [cneg cfold citems] in A. rewrite items_singles in A.
  cbn [existsb items_match] in A. unfold items_match in A. cbn [existsb] in A. rewrite !orb_false_r in A. apply orb_true_iff in A. rewrite !N.eqb_eq in A.
  assert (I : In c (runes x ++ d)). { rewrite <- R, E. apply in_or_app. right. left. reflexivity. }
  apply in_app_or in I as [I|I]; [destruct A; subst; auto|]. apply (all_digits_In d) in I; auto. lia.
Qed.
Lemma no_semi t p : ~ In 59 t -> index_of t (59 :: p) = None.
Proof.
  intros H. destruct (index_of t (59 :: p)) as [i|] eqn:X; [exfalso|reflexivity]. apply index_of_some in X as (u & X & _). apply H. rewrite X. apply in_or_app. right. left. reflexivity.
Qed.
Lemma text_clean x d : clean (x ++ d) -> all_digits d = true -> d <> [] -> ~ In 92 (runes x) -> ~ In 47 (runes x) -> ~ In 59 x ->
  buildNationalNumberForParsing (x ++ d) = Ret (x ++ d).
Proof.
  intros Cl Dd Ne N1 N2 N3. assert (S : ~ In 59 (x ++ d)). { intros I. apply in_app_or in I as [I|I]; auto. apply (all_digits_In d) in I; auto. lia. }
  rewrite build_eq. unfold text_of. change rfc3966PhoneContext with (59 :: bs "phone-context="). rewrite no_semi by auto. rewrite possible_clean by auto. unfold cut_isub.
  change rfc3966IsdnSubaddress with (59 :: bs "isub="). rewrite no_semi by auto. reflexivity.
Qed.
Lemma same_text C s s' r ck p t : buildNationalNumberForParsing s = Ret t -> buildNationalNumberForParsing s' = Ret t -> s <> [] -> s' <> [] -> (length s <= 250)%nat -> (length s' <= 250)%nat ->
  parseHelper C s r false ck p = parseHelper C s' r false ck p.
Proof.
  intros B B' N1 N2 L L'. unfold parseHelper. rewrite B, B'. replace (is_empty s) with false by (destruct s; [congruence|reflexivity]). replace (is_empty s') with false by (destruct s'; [congruence|reflexivity]).
  replace (maxInputStringLength <? len s)%nat with false by (symmetry; apply Nat.ltb_ge; exact L). replace (maxInputStringLength <? len s')%nat with false by (symmetry; apply Nat.ltb_ge; exact L'). reflexivity.
Qed.
Lemma local_digits s pre d ctx after : first_context s (pre ++ d) ctx after -> all_digits d = true -> pre = [] \/ pre = bs "tel:" -> local_part s (length (pre ++ d)) = d.
Proof.
  intros F Dd P. pose proof (first_index _ _ _ _ F) as [I _]. destruct F as (E & _ & _ & _). unfold local_part. rewrite app_length.
  destruct P as [-> | ->].
  - cbn [app length] in *. rewrite Nat.add_0_l. destruct (index_of s rfc3966Prefix) as [j|] eqn:J.
    + destruct (j <? length d)%nat eqn:L; [exfalso|rewrite E, firstn_app, firstn_all, Nat.sub_diag; simpl; apply app_nil_r]. apply Nat.ltb_lt in L.
      apply index_of_some in J as (u & J & _). assert (X : nth_error s j = Some 116). { rewrite J, nth_error_app2; rewrite firstn_length; [|lia]. assert (j < length s)%nat by (rewrite E, app_length; lia). replace (j - _)%nat with 0%nat by lia. reflexivity. }
      rewrite E, nth_error_app1 in X by lia. apply nth_error_In in X. apply (all_digits_In d) in X; auto. lia.
    + rewrite E, firstn_app, firstn_all, Nat.sub_diag. simpl. apply app_nil_r.
  - assert (J : index_of s rfc3966Prefix = Some 0%nat). { rewrite E, <- app_assoc. generalize (d ++ bs ";phone-context=" ++ ctx ++ after). intros z. change (bs "tel:" ++ z) with (116 :: 101 :: 108 :: 58 :: z). cbn [index_of]. replace (has_prefix (116 :: 101 :: 108 :: 58 :: z) rfc3966Prefix) with true; [reflexivity|]. symmetry. apply (has_prefix_app rfc3966Prefix z). }
    rewrite J. change (0 <? length (bs "tel:") + length d)%nat with true. rewrite E. change (0 + len rfc3966Prefix)%nat with 4%nat. change (length (bs "tel:")) with 4%nat.
    rewrite <- app_assoc. change (skipn 4 (bs "tel:" ++ ?z)) with z. replace (4 + length d - 4)%nat with (length d) by lia. rewrite firstn_app, firstn_all, Nat.sub_diag. simpl. apply app_nil_r.
Qed.
Lemma context_text s pre d ctx after : first_context s (pre ++ d) ctx after -> all_digits d = true -> d <> [] -> pre = [] \/ pre = bs "tel:" -> valid_context ctx ->
  buildNationalNumberForParsing s = Ret ((if has_prefix ctx [43] then ctx else []) ++ d).
Proof.
  intros F Dd Ne P V. pose proof (first_index _ _ _ _ F) as [I X]. pose proof (local_digits _ _ _ _ _ F Dd P) as Lp. rewrite build_eq. unfold text_of. rewrite I, X.
  apply context_ok in V as V'. rewrite V'. cbn [negb]. replace (length (pre ++ d) =? 0)%nat with false by (symmetry; apply Nat.eqb_neq; rewrite app_length; destruct d; [congruence|simpl; lia]).
  rewrite Lp. f_equal. unfold cut_isub. change rfc3966IsdnSubaddress with (59 :: bs "isub="). rewrite no_semi; [reflexivity|]. intros Y. destruct F as (_ & _ & Nc & _).
  apply in_app_or in Y as [Y|Y]; [destruct (has_prefix ctx [43]); [auto|destruct Y]|]. apply (all_digits_In d) in Y; auto. lia.
Qed.
Lemma first_rune_plus ctx : (exists x, runes ctx = 43 :: x) -> exists t, ctx = 43 :: t.
Proof.
  intros (x & H). rewrite runes_eq in H. destruct (decode_rune ctx) as [[c t]|] eqn:D; [|discriminate]. injection H as -> _. apply decode_inv in D; [|discriminate]. exists t. exact D.
Qed.
Lemma tel_length s pre d ctx after : first_context s (pre ++ d) ctx after -> (length (ctx ++ d) <= length s)%nat.
Proof. intros (-> & _). rewrite !app_length. simpl. lia. Qed.
Lemma parse_global C s pre d ctx after r p : first_context s (pre ++ d) ctx after -> all_digits d = true -> d <> [] -> pre = [] \/ pre = bs "tel:" -> global_context (runes ctx) ->
  (length s <= 250)%nat -> ParseToNumber C s r p = ParseToNumber C (ctx ++ d) r p.
Proof.
  intros F Dd Ne P G L. pose proof (tel_length _ _ _ _ _ F) as L2. unfold ParseToNumber. destruct G as (x & G & A & B). destruct (first_rune_plus ctx) as (t & Ct); [eauto|].
  apply same_text with (t := ctx ++ d); try lia; try (destruct ctx, s; discriminate || (destruct F as (F & _); destruct pre, d; discriminate)).
  - rewrite (context_text _ _ _ _ _ F Dd Ne P) by (left; exists x; auto). rewrite Ct. cbn [has_prefix]. replace (has_prefix t []) with true by (destruct t; reflexivity). reflexivity.
  - assert (Bad : forall c, In c (runes ctx) -> c = 43 \/ decimal c = true \/ visual c = true).
    { intros c I. rewrite G in I. destruct I as [<-|I]; auto. eapply forallb_forall in A; eauto. apply orb_true_iff in A. tauto. }
    apply text_clean; auto.
    + rewrite Ct. exists 43, (t ++ d). split; [|auto]. cbn [app]. apply decode_ascii. lia.
    + intros I. apply Bad in I as [I|[I|I]]; discriminate.
    + intros I. apply Bad in I as [I|[I|I]]; discriminate.
    + apply F.
Qed.
Lemma domain_no_plus ctx : domain_context (runes ctx) -> has_prefix ctx [43] = false.
Proof.
  intros (ls & top & dot & E & Fl & T & _). destruct ctx as [|c ctx]; [reflexivity|]. cbn [has_prefix]. destruct (N.eqb_spec 43 c) as [<-|]; [|reflexivity]. exfalso.
  rewrite runes_ascii_cons in E by lia. assert (K : forall l r, label l -> hd_error (l ++ r) <> Some 43).
  { intros l r (a & H1 & H2 & _) X. destruct l; [discriminate|]. inv H1. inv X. discriminate. }
  destruct ls as [|l ls]; simpl in E; [apply (K top dot T); rewrite <- E; reflexivity|]. inv Fl. rewrite <- !app_assoc in E. eapply (K l); [eassumption|]. rewrite <- E. reflexivity.
Qed.
Lemma parse_domain C s pre d ctx after r p : first_context s (pre ++ d) ctx after -> all_digits d = true -> d <> [] -> pre = [] \/ pre = bs "tel:" -> domain_context (runes ctx) ->
  (length s <= 250)%nat -> ParseToNumber C s r p = ParseToNumber C d r p.
Proof.
  intros F Dd Ne P G L. pose proof (tel_length _ _ _ _ _ F) as L2. rewrite app_length in L2. unfold ParseToNumber.
  apply same_text with (t := d); auto; try lia; try (destruct ctx, s; discriminate || (destruct F as (F & _); destruct pre, d; discriminate)).
  - rewrite (context_text _ _ _ _ _ F Dd Ne P) by (right; auto). rewrite domain_no_plus by auto. reflexivity.
  - apply (text_clean [] d); auto. destruct d as [|c d]; [congruence|]. assert (48 <= c <= 57) by (apply (all_digits_In (c :: d)); [auto|left; auto]). exists c, d. split; [apply decode_ascii; lia|].
    right. right. unfold decimal. rewrite digit_for_self by auto. reflexivity.
Qed.
Lemma parse_bad_context C s before ctx after r k p : first_context s before ctx after -> ~ valid_context ctx -> (length s <= 250)%nat -> parseHelper C s r k true p = Ret (p, Some ErrNotANumber).
Proof.
  intros F V L. pose proof (first_index _ _ _ _ F) as [I X]. unfold parseHelper. replace (is_empty s) with false by (destruct F as (F & _); destruct s; [destruct before; discriminate|reflexivity]).
  replace (maxInputStringLength <? len s)%nat with false by (symmetry; apply Nat.ltb_ge; exact L). rewrite build_eq. unfold text_of. rewrite I, X.
  destruct (isPhoneContextValid ctx) eqn:Y; [apply context_ok in Y; contradiction|]. reflexivity.
Qed.
