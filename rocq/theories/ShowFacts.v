(** Facts about formatting rules needed to follow the as-you-type formatter while an international number is typed: which rules survive
    the narrowing by leading digits, and that the anchored expression prints what the rule itself prints. *)
From Verif Require Import Base BaseFacts Utf8 Utf8Facts Regex RegexSpec RegexFacts RegexGrow Consts Types Normalize Validate Format Parse
  NumberSpec NumberFacts MetaSpec ValidateSpec ValidateFacts Container Shipped MetaFacts FormatSpec TextFacts LangFacts FormatFacts FormatMore DerivFacts RoundTripFacts RuleSpec RuleFacts
  AsYouType AytfSpec MatcherTotal NationalFacts.
Local Opaque compile re_find re_replace_all.

(** * Languages *)
Definition ast (p : bytes) : regex := match compile p with Some x => re_ast x | None => never end.
Definition dig_star : regex := RStar true (RClass {| cneg := false; citems := [CR 48 57]; cfold := false |}).
(** Some beginning of the digits is in the language. *)
Definition front (r : regex) : regex := RCat r dig_star.
Lemma dig_star_all w : all_digits w = true -> lang dig_star w.
Proof.
  induction w as [|c w IH]; intros D; [constructor|]. unfold all_digits in D. cbn [forallb] in D. apply andb_true_iff in D as [D1 D2]. change (c :: w) with ([c] ++ w). constructor; [|apply IH; exact D2].
  constructor. apply digit_in10 in D1. cbn [digits10 In] in D1. repeat (destruct D1 as [D1|D1]; [subst c; reflexivity|]). destruct D1.
Qed.
Lemma front_lang r w : all_digits w = true -> lang (front r) w <-> exists u v, w = u ++ v /\ lang r u.
Proof.
  intros D. split.
  - intros H. inversion H; subst. eauto.
  - intros (u & v & -> & L). constructor; [exact L|]. rewrite all_digits_app in D. apply andb_true_iff in D as [_ D]. apply dig_star_all. exact D.
Qed.
Lemma digits_ascii w : all_digits w = true -> ascii w.
Proof. unfold all_digits, ascii. rewrite forallb_forall, Forall_forall. intros H c Hc. apply H, is_digit_iff in Hc. lia. Qed.
Lemma matches_front_lang p s : anchorless (ast p) = true -> compiles_b p = true -> all_digits s = true -> matches_front p s <-> lang (front (ast p)) s.
Proof.
  intros A K D. rewrite front_lang by exact D. unfold matches_front, ast in *. unfold compiles_b in K. destruct (compile p) as [x|]; [|discriminate]. split.
  - intros (x' & j & cs & E & _ & H). injection E as <-. apply derives_lang in H as (w & E & L). apply eats_ascii in E; [|apply digits_ascii; exact D]. eauto.
  - intros (u & v & -> & L). destruct (lang_derives _ _ L A (u ++ v) v 0%nat []) as (p' & cs' & H).
    { assert (Au : ascii u) by (apply digits_ascii; rewrite all_digits_app in D; apply andb_true_iff in D; tauto). clear - Au. induction u as [|c u IH]; [constructor|]. inversion Au; subst. econstructor; [apply decode_ascii; assumption|apply IH; assumption]. }
    exists x, p', cs'. split; [reflexivity|]. pose proof (derives_left _ _ _ _ _ _ _ H) as Q. rewrite app_length in Q. unfold bytes in *. assert (p' = length u) by lia. subst p'. split; [split; [lia|unfold len; rewrite app_length; lia]|]. rewrite skipn_O. replace (skipn (length u) (u ++ v)) with v by (rewrite skipn_app, skipn_all, Nat.sub_diag; reflexivity). exact H.
Qed.
Lemma matches_all_lang p s : anchorless (ast p) = true -> compiles_b p = true -> all_digits s = true -> matches_all p s <-> lang (ast p) s.
Proof.
  intros A K D. unfold matches_all, ast in *. unfold compiles_b in K. destruct (compile p) as [x|]; [|discriminate]. split.
  - intros (x' & cs & E & _ & H). injection E as <-. rewrite skipn_all in H. apply derives_lang in H as (w & E & L). apply eats_ascii in E; [|apply digits_ascii; exact D]. rewrite app_nil_r in E. subst w. exact L.
  - intros L. destruct (lang_derives _ _ L A s [] 0%nat []) as (p' & cs' & H).
    { apply digits_ascii in D. clear - D. induction s as [|c u IH]; [constructor|]. inversion D; subst. econstructor; [apply decode_ascii; assumption|apply IH; assumption]. }
    exists x, cs'. split; [reflexivity|]. pose proof (derives_left _ _ _ _ _ _ _ H) as Q. cbn [length] in Q. assert (p' = length s) by lia. subst p'. split; [split; [lia|unfold len; lia]|]. rewrite skipn_all. exact H.
Qed.

(** Derivatives survive on every beginning of an accepted text. *)
Lemma acc_front S w v : acc S (w ++ v) = true -> run w S <> [].
Proof. unfold acc. rewrite run_app. intros H E. rewrite E in H. clear E. induction v as [|c v IH]; [discriminate|apply IH; exact H]. Qed.

(** ** Layers: all states after j digits *)
Fixpoint vdedup (l : list vec) : list vec := match l with [] => [] | x :: t => if vmem x t then vdedup t else x :: vdedup t end.
Definition layer1 (k : nat) (l : list vec) : list vec := vdedup (filter (fun x => negb (dead k x)) (flat_map (fun x => map (fun c => vstep c x) digits10) l)).
Fixpoint layers (j : nat) (k : nat) (l : list vec) : list vec := match j with O => l | S j => layers j k (layer1 k l) end.
Lemma vmem_in x l : vmem x l = true -> In x l.
Proof. unfold vmem. rewrite existsb_exists. intros (y & I & E). apply vec_eqb_ok in E. subst y. exact I. Qed.
Lemma vdedup_in x l : In x l -> In x (vdedup l).
Proof.
  induction l as [|y l IH]; [auto|]. cbn [vdedup]. intros [->|I].
  - destruct (vmem x l) eqn:E; [apply IH; apply vmem_in; exact E|left; reflexivity].
  - destruct (vmem y l); [apply IH; exact I|right; apply IH; exact I].
Qed.
Lemma layers_in k w : forall l x, In x l -> all_digits w = true -> (forall u v, w = u ++ v -> dead k (vrun u x) = false) -> In (vrun w x) (layers (length w) k l).
Proof.
  induction w as [|c w IH]; intros l x I D H; cbn [length layers].
  - unfold vrun. cbn [run]. rewrite map_id. exact I.
  - unfold all_digits in D. cbn [forallb] in D. apply andb_true_iff in D as [D1 D2]. assert (E : vrun (c :: w) x = vrun w (vstep c x)) by (unfold vrun, vstep; rewrite map_map; reflexivity).
    rewrite E. apply IH; [|exact D2|].
    + unfold layer1. apply vdedup_in. apply filter_In. split.
      * apply in_flat_map. exists x. split; [exact I|]. apply in_map_iff. exists c. split; [reflexivity|]. apply digit_in10. exact D1.
      * rewrite negb_true_iff. specialize (H [c] w eq_refl). unfold vrun in H. cbn [run] in H. exact H.
    + intros u v ->. specialize (H (c :: u) v eq_refl). unfold vrun, vstep in *. rewrite map_map. exact H.
Qed.

(** ** Longest text of an expression *)
Fixpoint maxlen (r : regex) : option nat :=
  match r with
  | REmpty | RBegin | REnd => Some 0%nat
  | RClass _ => Some 1%nat
  | RCat a b => match maxlen a, maxlen b with Some x, Some y => Some (x + y)%nat | _, _ => None end
  | RAlt a b => match maxlen a, maxlen b with Some x, Some y => Some (Nat.max x y) | _, _ => None end
  | RStar _ _ => None
  | RGroup _ a => maxlen a
  end.
Lemma maxlen_ok r w : lang r w -> forall k, maxlen r = Some k -> (length w <= k)%nat.
Proof.
  induction 1; intros k0 K; cbn [maxlen] in K; try (injection K as <-; cbn; lia); try discriminate; auto.
  - destruct (maxlen a) as [x|]; [|discriminate]. destruct (maxlen b) as [y|]; [|discriminate]. injection K as <-. rewrite app_length. specialize (IHlang1 _ eq_refl). specialize (IHlang2 _ eq_refl). lia.
  - destruct (maxlen a) as [x|]; [|discriminate]. destruct (maxlen b) as [y|]; [|discriminate]. injection K as <-. specialize (IHlang _ eq_refl). lia.
  - destruct (maxlen a) as [x|]; [|discriminate]. destruct (maxlen b) as [y|]; [|discriminate]. injection K as <-. specialize (IHlang _ eq_refl). lia.
Qed.

(** * Rules *)
Definition last_level (f : nfmt) : regex := match nf_leading f with [] => REmpty | l => ast (last l []) end.
(** The leading digits consulted when i + 3 digits of the number are known. *)
Definition level (i : nat) (f : nfmt) : regex := match nf_leading f with [] => REmpty | ls => ast (nth (Nat.min i (length ls - 1)) ls []) end.
Definition patt (f : nfmt) : regex := ast (get_pattern f).
Definition has_len (f : nfmt) (k : nat) : bool := acc [patt f] (repeat 48 k).
Lemma nth_last {A} (l : list A) d : l <> [] -> nth (length l - 1) l d = last l d.
Proof.
  induction l as [|a l IH]; [congruence|]. intros _. destruct l as [|b l]; [reflexivity|]. change (last (a :: b :: l) d) with (last (b :: l) d). rewrite <- IH by discriminate. cbn [length]. replace (S (S (length l)) - 1)%nat with (S (S (length l) - 1)) by lia. reflexivity.
Qed.
Lemma level_last i f : (length (nf_leading f) <= S i)%nat -> level i f = last_level f.
Proof.
  unfold level, last_level. destruct (nf_leading f) as [|p l] eqn:E; [reflexivity|]. intros H. rewrite <- E in *. rewrite Nat.min_r by lia. rewrite nth_last by (rewrite E; discriminate). rewrite E. reflexivity.
Qed.
(** The template has room for all but the last digit. *)
Definition room (f : nfmt) : nat := match compile (get_pattern f) with Some m => length (re_find_string m longestPhoneNumber) | None => 0%nat end.
Definition caps_eqb : caps -> caps -> bool := list_eqb (fun a b => (fst a =? fst b)%nat && (fst (snd a) =? fst (snd b))%nat && (snd (snd a) =? snd (snd b))%nat).
Definition mres_eqb (a b : mres) : bool := (m_start a =? m_start b)%nat && (m_end a =? m_end b)%nat && caps_eqb (m_caps a) (m_caps b).
Lemma mres_eqb_ok a b : mres_eqb a b = true -> a = b.
Proof.
  unfold mres_eqb. rewrite !andb_true_iff, !Nat.eqb_eq. destruct a, b; cbn. intros ((-> & ->) & H). apply list_eqb_ok in H; [congruence|]. intros (x1 & x2 & x3) (y1 & y2 & y3). cbn. rewrite !andb_true_iff, !Nat.eqb_eq. intros ((-> & ->) & ->). reflexivity.
Qed.
(** On each number of n digits the expression matches, it takes the whole number, and anchored it captures the same. *)
Definition takes (x y : re) (n : nat) : bool :=
  if acc [re_ast x] (repeat 48 n) then
    match re_find x (repeat 48 n), re_find y (repeat 48 n) with Some a, Some b => (m_start a =? 0)%nat && (m_end a =? n)%nat && mres_eqb a b | _, _ => false end
  else true.
Definition prints_same (f : nfmt) : bool :=
  match compile (get_pattern f), compile (anchored (get_pattern f)) with
  | Some x, Some y => blind (re_ast x) && blind (re_ast y) && (0 <? minrunes (re_ast x))%nat && (0 <? minrunes (re_ast y))%nat && forallb (takes x y) (seq 0 18)
  | _, _ => false
  end.
Definition rule_clear (f : nfmt) : bool :=
  eligible f && framed_b (get_pattern f) && anchorless (patt f) && compiles_b (get_pattern f) && forallb (fun p => framed_left_b p && anchorless (ast p) && compiles_b p) (nf_leading f) &&
  match maxlen (patt f) with Some k => (k <=? S (room f))%nat | None => false end && prints_same f && rule_keeps joint f (get_format f).
(** A rule that applies to the number survives every narrowing on the way. *)
Definition survives (f : nfmt) : bool :=
  forallb (fun i => forallb (fun v => nuls (nth 2 v [])) (layers (3 + i) 2 [[[patt f]; [front (last_level f)]; [front (level i f)]]])) (seq 0 (length (nf_leading f))).
(** Some number begins as level i of both g and h and the last level of f ask for. *)
Definition compat (i : nat) (g f h : nfmt) : bool :=
  negb (safe 5000 3 (fun v => if nuls (nth 0 v []) then if nuls (nth 1 v []) then negb (nuls (nth 2 v [])) else true else true) [[front (level i g)]; [front (last_level f)]; [front (level i h)]]).
(** On the way from i + 3 digits to any length both g and f have there is a length that none of these rules has. *)
Definition gaps (hs : list nfmt) (g f : nfmt) (i : nat) : bool :=
  forallb (fun L => if has_len g L then if has_len f L then existsb (fun j => negb (existsb (fun h => has_len h j) hs)) (seq (4 + i) (L - 4 - i)) else true else true) (seq (3 + i) (15 - i)).
Definition sharp (g f : nfmt) (i : nat) : bool :=
  safe 5000 3 (fun v => if nuls (nth 0 v []) then if nuls (nth 1 v []) then if nuls (nth 2 v []) then nuls (nth 3 v []) else true else true else true)
    [[patt g]; [front (level i g)]; [front (last_level f)]; [front (last_level g)]].
(** A number to which f applies, and g does not although its pattern matches: g has been discarded when all digits are known. *)
Definition discards (l : list nfmt) (g f : nfmt) : bool := forallb (fun i => if gaps l g f i then true else if sharp g f i then true else gaps (filter (compat i g f) l) g f i) (seq 0 (length (nf_leading g) - 1)).
Fixpoint pairs_ok (all l : list nfmt) : bool := match l with [] => true | g :: l' => forallb (discards all g) l' && pairs_ok all l' end.
Definition rules_clear (l : list nfmt) : bool := forallb rule_clear l && forallb survives l && pairs_ok l l.
(** The plus sign is tried before the other international prefixes. *)
Definition plus_first (m : option meta) : bool :=
  match idd_re m with Some x => match re_ast x with RCat RBegin (RAlt (RClass k) _) => cls_match k 43 | _ => false end | None => false end.
Definition meta_clear (m : meta) : bool := plus_first (Some m) && rules_clear (rules m INTERNATIONAL).
