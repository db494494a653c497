(** What the conditions of ShowFacts mean for a number. *)
From Verif Require Import Base BaseFacts Utf8 Utf8Facts Regex RegexSpec RegexFacts RegexGrow Consts Types Normalize Validate Format Parse
  NumberSpec NumberFacts MetaSpec ValidateSpec ValidateFacts Container FormatSpec TextFacts LangFacts FormatFacts FormatMore DerivFacts RoundTripFacts RuleSpec RuleFacts RuleMore
  AsYouType AytfSpec ExtFacts NationalFacts ShowFacts.
Local Opaque compile re_find re_replace_all safe.

Lemma all_digits_firstn n s : all_digits s = true -> all_digits (firstn n s) = true.
Proof. intros D. rewrite <- (firstn_skipn n s), all_digits_app in D. apply andb_true_iff in D. tauto. Qed.
Lemma firstn_firstn_le {A} i j (l : list A) : (i <= j)%nat -> firstn j l = firstn i l ++ skipn i (firstn j l).
Proof. intros H. rewrite <- (firstn_skipn i (firstn j l)) at 1. rewrite firstn_firstn, Nat.min_l by lia. reflexivity. Qed.
Lemma front_more r u v : all_digits (u ++ v) = true -> lang (front r) u -> lang (front r) (u ++ v).
Proof.
  intros D L. pose proof D as D'. rewrite all_digits_app in D'. apply andb_true_iff in D' as [D' _]. apply (proj1 (front_lang r u D')) in L as (a & b & -> & L). apply (proj2 (front_lang r _ D)). exists a, (b ++ v). split; [rewrite app_assoc; reflexivity|exact L].
Qed.
Lemma front_firstn r i j s : all_digits s = true -> (i <= j)%nat -> lang (front r) (firstn i s) -> lang (front r) (firstn j s).
Proof. intros D H L. rewrite (firstn_firstn_le i j) by lia. apply front_more; [rewrite <- firstn_firstn_le by lia; apply all_digits_firstn; exact D|exact L]. Qed.
Lemma front_all r i s : all_digits s = true -> lang (front r) (firstn i s) -> lang (front r) s.
Proof. intros D L. rewrite <- (firstn_skipn i s). apply front_more; [rewrite firstn_skipn; exact D|exact L]. Qed.
Lemma acc_nth S w : acc S w = true -> nuls (run w S) = true.
Proof. auto. Qed.
Lemma dead_prefix (k : nat) (x : vec) w : Forall (fun S => acc S w = true) (firstn k x) -> forall u v, w = u ++ v -> dead k (vrun u x) = false.
Proof.
  intros F u v ->. apply dead_false. unfold vrun. rewrite firstn_map. rewrite Forall_map. eapply Forall_impl; [|exact F]. intros S H. cbv beta in H. apply acc_front in H. exact H.
Qed.
Lemma dead_whole (k : nat) (x : vec) w : Forall (fun S => acc S w = true) (firstn k x) -> dead k (vrun w x) = false.
Proof. intros F. apply (dead_prefix k x w F w []). rewrite app_nil_r. reflexivity. Qed.

(** * The pieces of the conditions *)
Lemma clear_parts f : rule_clear f = true -> eligible f = true /\ framed (get_pattern f) /\ anchorless (patt f) = true /\ compiles_b (get_pattern f) = true /\
  (forall p, In p (nf_leading f) -> framed_left p /\ anchorless (ast p) = true /\ compiles_b p = true) /\ (exists k, maxlen (patt f) = Some k /\ (k <= S (room f))%nat) /\ prints_same f = true /\ rule_keeps joint f (get_format f) = true.
Proof.
  unfold rule_clear. rewrite !andb_true_iff. intros (((((((H1 & H2) & H3) & H4) & H5) & H6) & H7) & H8). split; [exact H1|]. split; [apply framed_b_ok; exact H2|]. split; [exact H3|]. split; [exact H4|]. split; [|split; [|split; [exact H7|exact H8]]].
  - rewrite forallb_forall in H5. intros p Hp. specialize (H5 p Hp). cbv beta in H5. rewrite !andb_true_iff in H5. destruct H5 as ((A & B) & D). split; [apply framed_left_b_ok; exact A|auto].
  - destruct (maxlen (patt f)) as [k|]; [|discriminate]. exists k. split; [reflexivity|]. apply Nat.leb_le. exact H6.
Qed.
Lemma blind_same f w : prints_same f = true -> all_digits w = true -> lang (patt f) w <-> has_len f (length w) = true.
Proof.
  unfold prints_same, has_len. intros P D. rewrite acc_one.
  assert (B : blind (patt f) = true). { unfold patt, ast. destruct (compile (get_pattern f)) as [x|]; [|discriminate]. destruct (compile (anchored _)); [|discriminate]. rewrite !andb_true_iff in P. tauto. }
  split; intros L; (eapply blind_lang; [exact L|exact B|]); (split; [|split]); auto using zeros_digits; rewrite repeat_length; reflexivity.
Qed.
Lemma applies_lang f s : rule_clear f = true -> all_digits s = true -> applies f s <-> lang (patt f) s /\ lang (front (last_level f)) s.
Proof.
  intros H D. apply clear_parts in H as (_ & _ & A & K & Lv & _). unfold applies. rewrite (matches_all_lang _ _ A K D). unfold patt. unfold last_level. destruct (nf_leading f) as [|p l] eqn:E.
  - split; [intros [X _]; split; [exact X|]|intros [X _]; split; [exact X|left; reflexivity]]. apply (proj2 (front_lang _ _ D)). exists [], s. split; [reflexivity|constructor].
  - assert (I : In (last (p :: l) []) (p :: l)) by (apply last_In; discriminate). destruct (Lv _ I) as (_ & A' & K'). rewrite (matches_front_lang _ _ A' K' D). split; [intros [X [Y|Y]]; [discriminate|auto]|intros [X Y]; auto].
Qed.
(** The expression consulted when j digits are known matches their beginning. *)
Definition narrowed (s : bytes) (j : nat) (g : nfmt) : Prop := lang (front (level (j - 3) g)) (firstn j s).
Lemma survive f s j : rule_clear f = true -> survives f = true -> all_digits s = true -> applies f s -> (3 <= j <= length s)%nat -> narrowed s j f.
Proof.
  intros Cl Sv D Ap J. apply (proj1 (applies_lang _ _ Cl D)) in Ap as [L1 L2]. unfold narrowed.
  destruct (nf_leading f) as [|p l] eqn:E.
  { unfold level. rewrite E. apply (proj2 (front_lang _ _ (all_digits_firstn j _ D))). exists [], (firstn j s). split; [reflexivity|constructor]. }
  set (i := Nat.min (j - 3) (length (nf_leading f) - 1)). assert (Ei : level (j - 3) f = level i f).
  { unfold level. rewrite E. rewrite <- E. f_equal. f_equal. unfold i. lia. }
  rewrite Ei. apply (front_firstn _ (3 + i) j _ D); [unfold i; lia|].
  unfold survives in Sv. rewrite forallb_forall in Sv. assert (Ii : In i (seq 0 (length (nf_leading f)))) by (apply in_seq; unfold i; rewrite E; cbn [length]; lia).
  specialize (Sv i Ii). cbv beta in Sv. rewrite forallb_forall in Sv. set (x := [[patt f]; [front (last_level f)]; [front (level i f)]]) in *.
  assert (In_ : In (vrun (firstn (3 + i) s) x) (layers (3 + i) 2 [x])).
  { assert (Le : length (firstn (3 + i) s) = (3 + i)%nat) by (rewrite firstn_length; unfold i; lia). rewrite <- Le at 2. apply layers_in; [left; reflexivity|apply all_digits_firstn; exact D|].
    intros u v Eu. apply (dead_prefix 2 x s) with (v := v ++ skipn (3 + i) s).
    - unfold x. cbn [firstn]. constructor; [apply acc_one; exact L1|]. constructor; [apply acc_one; exact L2|constructor].
    - rewrite app_assoc, <- Eu, firstn_skipn. reflexivity. }
  specialize (Sv _ In_). cbv beta in Sv. unfold vrun, x in Sv. cbn [map nth] in Sv. apply acc_one. exact Sv.
Qed.

Lemma safe_all fuel chk x w : safe fuel 3 chk x = true -> all_digits w = true -> Forall (fun S => acc S w = true) (firstn 3 x) -> chk (vrun w x) = true.
Proof. intros H D F. destruct (safe_run _ _ _ _ H w D) as [X|X]; [|exact X]. rewrite (dead_whole _ _ _ F) in X. discriminate. Qed.
Lemma safe_fourth n a b c d w : safe n 3 (fun v => if nuls (nth 0 v []) then if nuls (nth 1 v []) then if nuls (nth 2 v []) then nuls (nth 3 v []) else true else true else true) [[a]; [b]; [c]; [d]] = true -> all_digits w = true ->
  lang a w -> lang b w -> lang c w -> lang d w.
Proof.
  intros H D La Lb Lc. apply acc_one in La, Lb, Lc. pose proof (safe_all _ _ _ w H D) as Z. unfold vrun in Z. cbn [firstn map nth] in Z. unfold acc in *. rewrite La, Lb, Lc in Z. apply acc_one. apply Z. constructor; [exact La|]. constructor; [exact Lb|]. constructor; [exact Lc|constructor].
Qed.
Lemma safe_third n a b c w : safe n 3 (fun v => if nuls (nth 0 v []) then if nuls (nth 1 v []) then negb (nuls (nth 2 v [])) else true else true) [[a]; [b]; [c]] = true -> all_digits w = true ->
  lang a w -> lang b w -> lang c w -> False.
Proof.
  intros H D La Lb Lc. apply acc_one in La, Lb, Lc. pose proof (safe_all _ _ _ w H D) as Z. unfold vrun in Z. cbn [firstn map nth] in Z. unfold acc in *. rewrite La, Lb, Lc in Z. assert (X : negb true = true); [|discriminate]. apply Z. constructor; [exact La|]. constructor; [exact Lb|]. constructor; [exact Lc|constructor].
Qed.
Lemma either (a b c : bool) : (if a then true else if b then true else c) = true -> a = true \/ b = true \/ c = true.
Proof. destruct a, b; auto. Qed.
Lemma compat_of i g f h w : all_digits w = true -> lang (front (level i g)) w -> lang (front (last_level f)) w -> lang (front (level i h)) w -> compat i g f h = true.
Proof. unfold compat. intros D A B E. apply not_false_iff_true. rewrite negb_false_iff. intros Sf. exact (safe_third _ _ _ _ w Sf D A B E). Qed.
Lemma pairs_in all l : pairs_ok all l = true -> forall pre f post g, l = pre ++ f :: post -> In g pre -> discards all g f = true.
Proof.
  induction l as [|h l IH]; intros H pre f post g E I; [destruct pre; discriminate|]. cbn [pairs_ok] in H. apply andb_true_iff in H as [H1 H2]. destruct pre as [|h' pre]; [destruct I|]. injection E as <- E. destruct I as [<-|I].
  - rewrite forallb_forall in H1. apply H1. rewrite E. apply in_or_app. right. left. reflexivity.
  - eapply IH; eauto.
Qed.
Lemma no_gap hs g f i (s : bytes) : gaps hs g f i = true -> (3 + i <= length s)%nat -> (length s <= 17)%nat -> has_len g (length s) = true -> has_len f (length s) = true ->
  exists j, (4 + i <= j < length s)%nat /\ forall h, In h hs -> has_len h j = false.
Proof.
  unfold gaps. intros G L3 L17 Hg Hf. rewrite forallb_forall in G. assert (Il : In (length s) (seq (3 + i) (15 - i))) by (apply in_seq; lia). specialize (G _ Il). cbv beta in G.
  rewrite Hg, Hf in G. rewrite existsb_exists in G. destruct G as (j & Ij & G). apply in_seq in Ij. exists j. split; [lia|]. intros h Hh. rewrite negb_true_iff in G.
  destruct (has_len h j) eqn:E; [|reflexivity]. assert (X : existsb (fun h => has_len h j) hs = true) by (apply existsb_exists; exists h; auto). congruence.
Qed.
(** The rules still possible when all but the last digit or all digits are known: the last narrowing took place at j digits, and at
    each later length some rule still possible matches. A rule before f whose pattern matches applies then itself. *)
Lemma discard l g f s j fs : rules_clear l = true -> discards l g f = true -> In g l -> In f l -> all_digits s = true -> (length s <= 17)%nat -> applies f s -> lang (patt g) s ->
  (3 <= j <= length s)%nat -> incl fs l -> In g fs -> (forall h, In h fs -> narrowed s j h) -> (forall j', (j < j' < length s)%nat -> exists h, In h fs /\ has_len h j' = true) -> applies g s.
Proof.
  intros Cl Di Ig If D L17 Ap Lg J Inc Gin Nar Len.
  unfold rules_clear in Cl. rewrite !andb_true_iff in Cl. destruct Cl as ((Cl & _) & _). rewrite forallb_forall in Cl.
  apply (proj2 (applies_lang _ _ (Cl _ Ig) D)). split; [exact Lg|]. apply (proj1 (applies_lang _ _ (Cl _ If) D)) in Ap as [Lf Ff].
  pose proof (Nar _ Gin) as Ng. unfold narrowed in Ng. pose proof (front_all _ _ _ D Ng) as Fg.
  destruct (Nat.le_gt_cases (length (nf_leading g)) (S (j - 3))) as [Q|Q]; [rewrite level_last in Fg by exact Q; exact Fg|].
  unfold discards in Di. rewrite forallb_forall in Di. set (i := (j - 3)%nat) in *. assert (Ii : In i (seq 0 (length (nf_leading g) - 1))) by (apply in_seq; lia). specialize (Di i Ii). cbv beta in Di.
  assert (Pr : forall h, In h l -> prints_same h = true) by (intros h Hh; apply Cl, clear_parts in Hh; tauto).
  assert (NoGap : forall hs, (forall h, In h fs -> In h hs) -> gaps hs g f i = true -> False).
  { intros hs Hs G. destruct (no_gap _ _ _ _ s G) as (j' & J' & Hn); [unfold i; lia|exact L17|exact (proj1 (blind_same g s (Pr _ Ig) D) Lg)|exact (proj1 (blind_same f s (Pr _ If) D) Lf)|].
    destruct (Len j') as (h & Hh & Hl); [unfold i in *; lia|]. rewrite (Hn h (Hs h Hh)) in Hl. discriminate. }
  apply either in Di as [Di|[Di|Di]]; [destruct (NoGap l (fun h Hh => Inc h Hh) Di)|exact (safe_fourth _ _ _ _ _ s Di D Lg Fg Ff)|].
  refine (False_ind _ (NoGap _ _ Di)). intros h Hh. apply filter_In. split; [apply Inc; exact Hh|]. exact (compat_of i g f h s D Fg Ff (front_all _ _ _ D (Nar _ Hh))).
Qed.

(** * What the anchored expression prints *)
Lemma anchored_prints f s x y t : prints_same f = true -> compile (get_pattern f) = Some x -> compile (anchored (get_pattern f)) = Some y -> all_digits s = true -> (length s <= 17)%nat -> lang (patt f) s ->
  re_replace_all y s t = re_replace_all x s t.
Proof.
  intros P Cx Cy D L17 L. pose proof (proj1 (blind_same f s P D) L) as Hl. unfold prints_same in P. rewrite Cx, Cy in P. rewrite !andb_true_iff in P. destruct P as ((((B1 & B2) & M1) & M2) & T).
  rewrite forallb_forall in T. assert (I : In (length s) (seq 0 18)) by (apply in_seq; lia). specialize (T _ I). unfold takes in T. unfold has_len, patt, ast in Hl. rewrite Cx in Hl. rewrite Hl in T.
  assert (Al : alike s (repeat 48 (length s))) by (split; [exact D|]; split; [apply zeros_digits|rewrite repeat_length; reflexivity]).
  rewrite <- (blind_find x s _ B1 Al), <- (blind_find y s _ B2 Al) in T. destruct (re_find x s) as [a|] eqn:Fx; [|discriminate]. destruct (re_find y s) as [b|] eqn:Fy; [|discriminate].
  rewrite !andb_true_iff, !Nat.eqb_eq in T. destruct T as ((T1 & T2) & T3). apply mres_eqb_ok in T3. subst b. apply Nat.ltb_lt in M1, M2.
  Local Transparent re_replace_all. unfold re_replace_all. rewrite (replace_whole x s _ a), (replace_whole y s _ a) by auto. reflexivity. Local Opaque re_replace_all.
Qed.
