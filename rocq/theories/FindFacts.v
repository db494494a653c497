(** Finding all the numbers of a text: facts about the candidate pattern and the rounds of the search. *)
From Verif Require Import Base BaseFacts UnicodeTables Utf8 Utf8Facts Regex RegexSpec RegexFacts LangFacts Consts Types Normalize Validate Format Parse Matcher MetaSpec ParseSpec ParseMore
  MatcherSpec MatcherFacts MatcherRun MatcherIter DerivFacts ExtFacts FindSpec.
Local Opaque re_find re_find_all re_match.

(** * The candidate pattern *)
Definition lead_cls : cls := {| cneg := false; citems := [CR 40 40; CR 91 91; CR 65288 65288; CR 65339 65339; CR 43 43; CR 65291 65291]; cfold := true |}.
Definition punct_cls : cls := {| cneg := false; citems := [CR 45 45; CR 120 120; CR 8208 8213; CR 8722 8722; CR 12540 12540; CR 65293 65295; CR 32 32; CR 160 160; CR 173 173; CR 8203 8203;
  CR 8288 8288; CR 12288 12288; CR 40 40; CR 41 41; CR 65288 65288; CR 65289 65289; CR 65339 65339; CR 65341 65341; CR 46 46; CR 91 91; CR 93 93; CR 47 47; CR 126 126; CR 8275 8275;
  CR 8764 8764; CR 65374 65374]; cfold := true |}.
Definition nd_cls : cls := {| cneg := false; citems := [CU UNd]; cfold := false |}.
Definition block : regex := RCat (RClass nd_cls) (rep_opt 19 true (RClass nd_cls)).
Definition leads : regex := rep_opt 2 true (RCat (RClass lead_cls) (rep_opt 4 true (RClass punct_cls))).
Definition more_blocks (n : nat) : regex := rep_opt n true (RCat (rep_opt 4 true (RClass punct_cls)) block).
Definition ext_part : regex := Eval vm_compute in match re_ast phoneNumberMatcherPattern with RCat _ (RCat _ (RCat _ e)) => e | _ => REmpty end.
Lemma pattern_shape : re_ast phoneNumberMatcherPattern = RCat leads (RCat block (RCat (more_blocks 20) ext_part)).
Proof. vm_cast_no_check (eq_refl (re_ast phoneNumberMatcherPattern)). Qed.

(** Expressions with no word, and with no word but the empty one, as far as words without decimal digits go. *)
Definition is_nd (k : cls) : bool := match k with {| cneg := false; citems := [CU UNd]; cfold := false |} => true | _ => false end.
Fixpoint void (r : regex) : bool :=
  match r with
  | RClass k => is_nd k
  | RCat a b => void a || void b
  | RAlt a b => void a && void b
  | RGroup _ a => void a
  | _ => false
  end.
Fixpoint mute (r : regex) : bool :=
  match r with
  | REmpty | RBegin | REnd => true
  | RClass k => is_nd k
  | RCat a b => void a || void b || (mute a && mute b)
  | RAlt a b => mute a && mute b
  | RStar _ a => mute a
  | RGroup _ a => mute a
  end.
Lemma is_nd_match k c : is_nd k = true -> cls_match k c = true -> is_Nd c = true.
Proof.
  destruct k as [ng [|i [|j l]] fo]; simpl; try (destruct ng; discriminate); destruct ng; try discriminate; destruct i as [lo hi|u|u]; try discriminate.
  - destruct u; try discriminate. destruct fo; [discriminate|]. intros _. unfold cls_match. cbn [cfold cneg citems items_match existsb citem_match ucat_table]. rewrite orb_false_r. auto.
  - destruct u; discriminate.
Qed.
Lemma void_ok r w : lang r w -> Forall (fun c => is_Nd c = false) w -> void r = false.
Proof.
  induction 1; simpl; intros F; auto.
  - destruct (is_nd k) eqn:E; auto. inv F. rewrite (is_nd_match k c E H) in *. discriminate.
  - apply Forall_app in F as [F1 F2]. rewrite IHlang1, IHlang2; auto.
  - rewrite IHlang; auto.
  - rewrite IHlang by auto. apply andb_false_r.
Qed.
Lemma mute_ok r w : lang r w -> mute r = true -> Forall (fun c => is_Nd c = false) w -> w = [].
Proof.
  induction 1; simpl; intros M F; auto.
  - inv F. rewrite (is_nd_match k c M H) in *. discriminate.
  - apply Forall_app in F as [F1 F2]. rewrite (void_ok _ _ H F1), (void_ok _ _ H0 F2) in M. simpl in M. apply andb_true_iff in M as [M1 M2]. rewrite IHlang1, IHlang2; auto.
  - apply andb_true_iff in M as [M1 M2]. auto.
  - apply andb_true_iff in M as [M1 M2]. auto.
  - apply Forall_app in F as [F1 F2]. rewrite IHlang1, IHlang2; auto.
Qed.

(** The classes that the first rune of a word can come from. *)
Fixpoint firsts (r : regex) : list cls :=
  match r with
  | RClass k => [k]
  | RCat a b => firsts a ++ (if nullable a then firsts b else [])
  | RAlt a b => firsts a ++ firsts b
  | RStar _ a | RGroup _ a => firsts a
  | _ => []
  end.
Lemma firsts_ok r w : lang r w -> forall c t, w = c :: t -> exists k, In k (firsts r) /\ cls_match k c = true.
Proof.
  induction 1; simpl; intros c0 t0 E; try discriminate.
  - inv E. eauto.
  - destruct v as [|x v].
    + rewrite (lang_nullable _ _ H eq_refl). destruct (IHlang2 _ _ E) as (k & I & M). exists k. split; auto. apply in_or_app; auto.
    + inv E. destruct (IHlang1 _ _ eq_refl) as (k & I & M). exists k. split; auto. apply in_or_app; auto.
  - destruct (IHlang _ _ E) as (k & I & M). exists k. split; auto. apply in_or_app; auto.
  - destruct (IHlang _ _ E) as (k & I & M). exists k. split; auto. apply in_or_app; auto.
  - destruct v as [|x v]; [apply (IHlang2 _ _ E)|]. inv E. apply (IHlang1 _ _ eq_refl).
  - apply (IHlang _ _ E).
Qed.
Lemma pattern_firsts : firsts (re_ast phoneNumberMatcherPattern) = [lead_cls; nd_cls].
Proof. vm_compute. reflexivity. Qed.
Lemma lead_cls_ok c : cls_match lead_cls c = true -> In c [40; 91; 65288; 65339; 43; 65291].
Proof.
  assert (I : forall x, items_match (citems lead_cls) x = true -> In x [40; 91; 65288; 65339; 43; 65291]).
  { intros x. unfold items_match, lead_cls. cbn [existsb citem_match citems In]. unfold in_rng. rewrite orb_false_r, !orb_true_iff, !andb_true_iff, !N.leb_le. lia. }
  unfold cls_match. change (cfold lead_cls) with true. change (cneg lead_cls) with false. cbv iota. intros H. apply existsb_exists in H as (x & Hx & Hi). apply I in Hi. clear I.
  unfold fold_orbit in Hx. unfold in_rng in Hx. cbn [In] in Hi.
  repeat match type of Hx with context [if ?b then _ else _] => let E := fresh in destruct b eqn:E; [rewrite ?orb_true_iff, ?andb_true_iff, ?N.eqb_eq, ?N.leb_le in E; cbn [In] in Hx; lia|] end.
  destruct Hx as [->|[]]. cbn [In]. lia.
Qed.
Lemma nd_cls_ok c : cls_match nd_cls c = is_Nd c.
Proof. unfold cls_match, nd_cls. cbn [cfold cneg citems items_match existsb citem_match ucat_table]. apply orb_false_r. Qed.
Lemma pattern_opens w c t : lang (re_ast phoneNumberMatcherPattern) w -> w = c :: t -> opens c = true.
Proof.
  intros L E. destruct (firsts_ok _ _ L c t E) as (k & I & M). rewrite pattern_firsts in I. unfold opens. apply orb_true_iff.
  assert (X : k = lead_cls \/ k = nd_cls) by (cbn [In] in I; intuition auto). destruct X as [-> | ->].
  - right. apply existsb_exists. exists c. split; [apply lead_cls_ok; auto|apply N.eqb_refl].
  - left. rewrite <- nd_cls_ok. exact M.
Qed.
Lemma pattern_not_nil : ~ lang (re_ast phoneNumberMatcherPattern) [].
Proof. intros L. pose proof (lang_nullable _ _ L eq_refl) as Nl. pose proof matcher_never as M. rewrite !andb_true_iff in M. destruct M as [[M _] _]. rewrite Nl in M. discriminate. Qed.

(** * Greedy runs *)
Definition stops (k : cls) (s : bytes) : Prop := forall c t, decode_rune s = Some (c, t) -> cls_match k c = false.
Lemma take_run cl : forall n a s k p cs x, Forall (fun c => c < 128 /\ cls_match cl c = true) a -> (length a <= n)%nat -> length a = n \/ stops cl s ->
  k (p + length a)%nat s cs = Some x -> rmatch (rep_opt n true (RClass cl)) k p (a ++ s) cs = Some x.
Proof.
  induction n as [|n IH]; intros a s k p cs x F L E K.
  - destruct a; [|simpl in L; lia]. cbn [rep_opt rmatch app]. rewrite Nat.add_0_r in K. exact K.
  - cbn [rep_opt rmatch]. destruct a as [|c a].
    + destruct E as [E|E]; [simpl in E; lia|]. cbn [app]. cbn [length] in K. rewrite Nat.add_0_r in K. destruct (decode_rune s) as [[c t]|] eqn:D; [rewrite (E _ _ D)|]; exact K.
    + inv F. match goal with H : _ /\ _ |- _ => destruct H as [Hc Hm] end. cbn [app]. rewrite decode_ascii, Hm by auto.
      rewrite (IH a s k _ cs x); auto; [simpl in L; lia|destruct E as [E|E]; auto; left; simpl in E; lia|]. rewrite <- K. f_equal. unfold len. cbn [length]. lia.
Qed.
Lemma digit_nd c : 48 <= c <= 57 -> is_Nd c = true.
Proof.
  assert (A : forallb is_Nd [48; 49; 50; 51; 52; 53; 54; 55; 56; 57] = true) by (vm_compute; reflexivity). rewrite forallb_forall in A. intros H. apply A. cbn [In]. lia.
Qed.
Lemma group_run d : digit_group d -> Forall (fun c => c < 128 /\ cls_match nd_cls c = true) d.
Proof. intros [F _]. eapply Forall_impl; [|exact F]. intros c H. cbv beta in H. split; [lia|]. rewrite nd_cls_ok. apply digit_nd, H. Qed.
Lemma gap_run g : gap g -> Forall (fun c => c < 128 /\ cls_match punct_cls c = true) g.
Proof. intros [F _]. eapply Forall_impl; [|exact F]. intros c [->|[->| ->]]; (split; [lia|vm_compute; reflexivity]). Qed.
Lemma take_block d s k p cs x : digit_group d -> stops nd_cls s -> k (p + length d)%nat s cs = Some x -> rmatch block k p (d ++ s) cs = Some x.
Proof.
  intros G E K. pose proof (group_run d G) as F. destruct G as [_ L]. destruct d as [|c d]; [cbn [length] in L; lia|]. inv F. match goal with H : _ /\ _ |- _ => destruct H as [Hc Hm] end.
  unfold block. cbn [rmatch app]. rewrite decode_ascii, Hm by auto. apply (take_run nd_cls 19 d s); auto; [cbn [length] in L; lia|]. rewrite <- K. f_equal. unfold len. cbn [length]. lia.
Qed.
Lemma digit_no_punct c : 48 <= c <= 57 -> cls_match punct_cls c = false.
Proof.
  assert (A : forallb (fun c => negb (cls_match punct_cls c)) [48; 49; 50; 51; 52; 53; 54; 55; 56; 57] = true) by (vm_compute; reflexivity). rewrite forallb_forall in A.
  intros H. specialize (A c ltac:(cbn [In]; lia)). destruct (cls_match _ _); [discriminate|reflexivity].
Qed.
Lemma digit_no_lead c : 48 <= c <= 57 -> cls_match lead_cls c = false.
Proof. intros H. destruct (cls_match lead_cls c) eqn:E; auto. apply lead_cls_ok in E. cbn [In] in E. lia. Qed.
Lemma stops_digits k d s : digit_group d -> (forall c, 48 <= c <= 57 -> cls_match k c = false) -> stops k (d ++ s).
Proof.
  intros [F L] H c t D. destruct d as [|x d]; [cbn [length] in L; lia|]. inv F. cbn [app] in D. rewrite decode_ascii in D by lia. inv D. auto.
Qed.
Lemma stops_gap g s : gap g -> stops nd_cls (g ++ s).
Proof.
  intros [F L] c t D. destruct g as [|x g]; [cbn [length] in L; lia|]. inv F. cbn [app] in D. rewrite decode_ascii in D by lia. inv D.
  match goal with H : _ \/ _ |- _ => destruct H as [->|[->| ->]] end; vm_compute; reflexivity.
Qed.
Definition tail_of (l : list (bytes * bytes)) : bytes := concat (map (fun x => fst x ++ snd x) l).
Lemma more_S n k p s cs : rmatch (more_blocks (S n)) k p s cs =
  match rmatch (rep_opt 4 true (RClass punct_cls)) (fun p1 s1 cs1 => rmatch block (fun p2 s2 cs2 => rmatch (more_blocks n) k p2 s2 cs2) p1 s1 cs1) p s cs with Some x => Some x | None => k p s cs end.
Proof. reflexivity. Qed.
Lemma take_tail k v : stops nd_cls v -> (forall n q, exists cs', rmatch (more_blocks n) k q v [] = Some (q, cs')) -> forall l n p, Forall (fun x => gap (fst x) /\ digit_group (snd x)) l -> (length l <= n)%nat ->
  exists cs', rmatch (more_blocks n) k p (tail_of l ++ v) [] = Some ((p + length (tail_of l))%nat, cs').
Proof.
  intros Sv K. induction l as [|[g d] l IH]; intros n p F L.
  - cbn [tail_of map concat app length]. destruct (K n p) as (cs' & E). exists cs'. rewrite Nat.add_0_r. exact E.
  - inv F. match goal with H : _ /\ _ |- _ => destruct H as [Hg Hd] end. cbn [fst snd] in *. destruct n as [|n]; [cbn [length] in L; lia|].
    destruct (IH n (p + length g + length d)%nat) as (cs' & E); auto; [cbn [length] in L; lia|]. exists cs'. unfold tail_of in *. cbn [map concat fst snd]. rewrite <- !app_assoc.
    rewrite more_S.
    erewrite (take_run punct_cls 4 g); [reflexivity|apply gap_run; auto|apply Hg|right; apply stops_digits; auto; apply digit_no_punct|].
    erewrite (take_block d); [reflexivity|auto| |].
    + destruct l as [|[g' d'] l]; [exact Sv|]. inv H2. cbn [map concat fst snd]. rewrite <- !app_assoc. apply stops_gap. tauto.
    + cbv beta. rewrite E. do 2 f_equal. rewrite !app_length. lia.
Qed.

(** * What follows the digits is left alone *)
Definition rest_re (n : nat) : regex := RCat (more_blocks n) ext_part.
Lemma ext_mute : mute ext_part && nullable ext_part = true.
Proof. vm_cast_no_check (eq_refl true). Qed.
Lemma more_mute n : mute (more_blocks n) = true.
Proof. destruct n; reflexivity. Qed.
Lemma rest_mute n : mute (rest_re n) = true.
Proof. unfold rest_re. cbn [mute]. rewrite more_mute. pose proof ext_mute as E. apply andb_true_iff in E as [E _]. rewrite E. apply orb_true_r. Qed.
Lemma breaking_avoided : forallb (fun c => (c <? 128) && avoids c (RCat (RCat (rep_opt 4 true (RClass punct_cls)) block) ext_part)) breaking = true.
Proof. vm_cast_no_check (eq_refl true). Qed.
Lemma rest_avoids n c : In c breaking -> c < 128 /\ avoids c (rest_re n) = true.
Proof.
  intros I. pose proof breaking_avoided as B. rewrite forallb_forall in B. apply B in I. clear B. apply andb_true_iff in I as [L A]. apply N.ltb_lt in L. split; [exact L|].
  change (avoids c (RCat (RCat (rep_opt 4 true (RClass punct_cls)) block) ext_part)) with (avoids c (RCat (rep_opt 4 true (RClass punct_cls)) block) && avoids c ext_part) in A. apply andb_true_iff in A as [A1 A2].
  unfold rest_re. cbn [avoids]. rewrite A2, andb_true_r. induction n; auto. change (avoids c (more_blocks (S n))) with (avoids c (RCat (rep_opt 4 true (RClass punct_cls)) block) && avoids c (more_blocks n) && true). rewrite A1, IHn. reflexivity.
Qed.
(** The text after a number: quiet, and then nothing or a breaking character before anything else. *)
Definition after (u t : bytes) : Prop := quiet u /\ (t = [] \/ (exists t', t = 43 :: t') \/ exists c, In c u /\ In c breaking).
Lemma eats_prefix l : Forall scalar l -> forall t w s', eats (encode_runes l ++ t) w s' -> (exists x y, l = x ++ y /\ w = x) \/ (exists z, z <> [] /\ w = l ++ z /\ eats t z s').
Proof.
  induction 1 as [|c l Sc F IH]; intros t w s' E; cbn [encode_runes flat_map app] in E.
  - destruct w as [|x w]; [left; exists [], []; auto|right; exists (x :: w); split; [discriminate|auto]].
  - inversion E as [|s0 c0 t0 w0 u0 D E']; subst; [left; exists [], (c :: l); auto|]. rewrite <- app_assoc, decode_encode in D by auto. inv D. apply IH in E'.
    destruct E' as [(x & y & -> & ->)|(z & Nz & -> & E')]; [left; exists (c0 :: x), y; auto|right; exists z; auto].
Qed.
Lemma encode_in c l : Forall scalar l -> c < 128 -> In c (encode_runes l) -> In c l.
Proof.
  intros F L. induction F as [|x l Sx F IH]; [auto|]. cbn [encode_runes flat_map]. intros I. apply in_app_or in I as [I|I]; [left|right; auto].
  unfold encode_rune in I. destruct (x <? 128) eqn:A; [destruct I as [I|[]]; auto|]. exfalso.
  assert (M : forall k, 128 <= 128 + k mod 64) by (intros; lia).
  repeat match type of I with context [if ?b then _ else _] => destruct b end; cbn [In] in I; repeat (destruct I as [I|I]); try (rewrite <- I in L; try lia; specialize (M (x / 4096)); lia); auto; lia.
Qed.
Lemma after_left u t n w s' : after u t -> lang (rest_re n) w -> eats (u ++ t) w s' -> w = [].
Proof.
  intros [(l & Sl & -> & Ql) B] L E. apply (mute_ok _ _ L (rest_mute n)). apply eats_prefix in E; auto.
  assert (Nd : Forall (fun c => is_Nd c = false) l). { eapply Forall_impl; [|exact Ql]. intros c H. unfold opens in H. apply orb_false_iff in H. tauto. }
  destruct E as [(x & y & -> & ->)|(z & Nz & -> & E)]; [apply Forall_app in Nd; tauto|]. exfalso. destruct B as [->|[(t' & ->)|(c & Ic & Ib)]].
  - inversion E; subst; [congruence|discriminate].
  - inversion E as [|s0 c0 t0 w0 u0 D E']; subst; [congruence|]. rewrite decode_ascii in D by lia. inv D.
    assert (I : In 43 breaking) by (vm_compute; tauto). destruct (rest_avoids n 43 I) as [_ A]. apply (avoids_ok _ _ _ L A). apply in_or_app. right. left. auto.
  - destruct (rest_avoids n c Ib) as [Lc A]. apply (avoids_ok _ _ _ L A). apply in_or_app. left. apply encode_in; auto.
Qed.
Lemma rest_stops u t n q : after u t -> exists cs', rmatch (rest_re n) final q (u ++ t) [] = Some (q, cs').
Proof.
  intros A. destruct (rmatch (rest_re n) final q (u ++ t) []) as [[e cs']|] eqn:E.
  - exists cs'. do 2 f_equal. apply rmatch_final in E as (s' & D). pose proof (derives_len _ _ _ _ _ _ _ D) as [Le _]. apply derives_lang in D as (w & Ew & L).
    pose proof (after_left _ _ _ _ _ A L Ew). subst w. inversion Ew; subst. lia.
  - exfalso. assert (D : exists cs', derives (rest_re n) q (u ++ t) [] q (u ++ t) cs'). { exists []. unfold rest_re. eapply D_cat.
      - destruct n; unfold more_blocks; cbn [rep_opt]; [constructor|apply D_alt_r; constructor].
      - unfold ext_part. apply D_alt_r. constructor. }
    destruct D as (cs' & D). apply (rmatch_complete _ _ _ _ _ _ _ D final); [discriminate|exact E].
Qed.
Lemma after_stops u t : after u t -> stops nd_cls (u ++ t).
Proof.
  intros [(l & Sl & -> & Ql) B] c s D. rewrite nd_cls_ok. destruct l as [|x l].
  - cbn [encode_runes flat_map app] in *. destruct B as [->|[(t' & ->)|(c0 & [] & _)]]; [discriminate|]. rewrite decode_ascii in D by lia. inv D. vm_compute. reflexivity.
  - cbn [encode_runes flat_map] in D. inv Sl. inv Ql. rewrite <- app_assoc, decode_encode in D by auto. inv D. unfold opens in *. match goal with H : _ || _ = false |- _ => apply orb_false_iff in H; tauto end.
Qed.

(** * The candidate is the number as written *)
Lemma opt_S n r k p s cs : rmatch (rep_opt (S n) true r) k p s cs = match rmatch r (fun p1 s1 cs1 => rmatch (rep_opt n true r) k p1 s1 cs1) p s cs with Some x => Some x | None => k p s cs end.
Proof. reflexivity. Qed.
Lemma cat_eq a b k p s cs : rmatch (RCat a b) k p s cs = rmatch a (fun p1 s1 cs1 => rmatch b k p1 s1 cs1) p s cs.
Proof. reflexivity. Qed.
Lemma class_none cl k p s cs : stops cl s -> rmatch (RClass cl) k p s cs = None.
Proof. intros S0. cbn [rmatch]. destruct (decode_rune s) as [[c t]|] eqn:D; auto. rewrite (S0 _ _ D). reflexivity. Qed.
Lemma class_some cl k p c s cs : c < 128 -> cls_match cl c = true -> rmatch (RClass cl) k p (c :: s) cs = k (p + 1)%nat s cs.
Proof. intros L M. cbn [rmatch]. rewrite decode_ascii, M by auto. f_equal. unfold len. cbn [length]. lia. Qed.
Lemma take_leads p d s k q x : p = [] \/ p = [43] -> digit_group d -> k (q + length p)%nat (d ++ s) [] = Some x -> rmatch leads k q (p ++ d ++ s) [] = Some x.
Proof.
  intros P G K. unfold leads. pose proof (stops_digits lead_cls d s G digit_no_lead) as S1. destruct P as [-> | ->].
  - cbn [app length] in *. rewrite Nat.add_0_r in K. rewrite opt_S, cat_eq, class_none by auto. exact K.
  - cbn [app]. cbn [length] in K. rewrite opt_S, cat_eq, class_some by (vm_compute; reflexivity).
    erewrite (take_run punct_cls 4 [] (d ++ s)); [reflexivity|constructor|cbn [length]; lia|right; apply stops_digits; auto; apply digit_no_punct|].
    cbn [length]. rewrite Nat.add_0_r. rewrite opt_S, cat_eq, class_none by auto. exact K.
Qed.
Lemma rest_stops' u t n q : after u t -> exists cs', rmatch (more_blocks n) (fun p' s' cs' => rmatch ext_part final p' s' cs') q (u ++ t) [] = Some (q, cs').
Proof. exact (rest_stops u t n q). Qed.
Local Opaque leads block more_blocks ext_part.
Lemma take_written w u t q : written w -> after u t -> exists cs, rmatch (re_ast phoneNumberMatcherPattern) final q (w ++ u ++ t) [] = Some ((q + length w)%nat, cs).
Proof.
  intros (p & d & l & P & Gd & Gl & Ll & Ew) A. subst w. fold (tail_of l). rewrite pattern_shape. rewrite <- !app_assoc.
  destruct (take_tail (fun p' s' cs' => rmatch ext_part final p' s' cs') (u ++ t) (after_stops _ _ A) (fun n q' => rest_stops' u t n q' A) l 20%nat (q + length p + length d)%nat Gl Ll) as (cs & E).
  exists cs. rewrite cat_eq. apply take_leads; [exact P|exact Gd|]. rewrite cat_eq. apply take_block; [exact Gd| |].
  - destruct l as [|[g d'] l]; [exact (after_stops _ _ A)|]. inv Gl. unfold tail_of. cbn [map concat fst snd]. rewrite <- !app_assoc. apply stops_gap. tauto.
  - rewrite cat_eq, E. do 2 f_equal. rewrite !app_length. lia.
Qed.
(** Quiet text is passed over. *)
Lemma quiet_none c s t p : decode_rune s = Some (c, t) -> opens c = false -> rmatch (re_ast phoneNumberMatcherPattern) final p s [] = None.
Proof.
  intros D O. destruct (rmatch _ _ _ _ _) as [[e cs]|] eqn:E; auto. exfalso. apply rmatch_final in E as (s' & Dv). apply derives_lang in Dv as (w & Ew & L).
  inversion Ew as [|s0 c0 t0 w0 u0 D' E']; subst; [exact (pattern_not_nil L)|]. rewrite D in D'. inv D'. rewrite (pattern_opens _ _ _ L eq_refl) in O. discriminate.
Qed.
Lemma quiet_skip l : Forall scalar l -> Forall (fun c => opens c = false) l -> forall f p s, (length (encode_runes l ++ s) <= f)%nat ->
  exists f', (length s <= f')%nat /\ search f (re_ast phoneNumberMatcherPattern) p (encode_runes l ++ s) = search f' (re_ast phoneNumberMatcherPattern) (p + length (encode_runes l)) s.
Proof.
  induction 1 as [|c l Sc F IH]; intros Q f p s L.
  - exists f. cbn [encode_runes flat_map app length] in *. rewrite Nat.add_0_r. auto.
  - inv Q. change (encode_runes (c :: l)) with (encode_rune c ++ encode_runes l) in *. rewrite <- app_assoc in *. pose proof (decode_encode c (encode_runes l ++ s) Sc) as D.
    pose proof (decode_rune_lt _ _ _ D) as Lt. destruct f as [|f]; [lia|]. cbn [search]. rewrite (quiet_none _ _ _ _ D) by auto. rewrite D.
    destruct (IH ltac:(auto) f (p + (len (encode_rune c ++ encode_runes l ++ s) - len (encode_runes l ++ s)))%nat s) as (f' & L' & E); [lia|].
    exists f'. split; [exact L'|]. rewrite E. f_equal. unfold len. rewrite !app_length. lia.
Qed.
Lemma find_quiet u : quiet u -> re_find phoneNumberMatcherPattern u = None.
Proof.
  intros (l & Sl & -> & Ql). Local Transparent re_find. unfold re_find, find_from. Local Opaque re_find. cbn [skipn]. rewrite <- (app_nil_r (encode_runes l)) at 2.
  destruct (quiet_skip l Sl Ql (len (encode_runes l) - 0) 0 []) as (f' & _ & ->); [rewrite app_nil_r; unfold len; lia|].
  assert (Z0 : forall p, rmatch (re_ast phoneNumberMatcherPattern) final p [] [] = None).
  { intros p. reflexivity. }
  destruct f'; cbn [search]; rewrite Z0; reflexivity.
Qed.
Lemma find_written u0 w u t : quiet u0 -> written w -> after u t -> exists m, re_find phoneNumberMatcherPattern (u0 ++ w ++ u ++ t) = Some m /\ m_start m = length u0 /\ m_end m = (length u0 + length w)%nat.
Proof.
  intros (l & Sl & -> & Ql) Hw A. Local Transparent re_find. unfold re_find, find_from. Local Opaque re_find. cbn [skipn].
  destruct (quiet_skip l Sl Ql (len (encode_runes l ++ w ++ u ++ t) - 0) 0 (w ++ u ++ t)) as (f' & _ & ->); [unfold len; lia|].
  destruct (take_written w u t (0 + length (encode_runes l))%nat Hw A) as (cs & E). destruct f'; cbn [search]; rewrite E; eexists; (split; [reflexivity|]); cbn [m_start m_end]; auto.
Qed.
