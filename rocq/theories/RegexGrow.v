(** How a match at the beginning of a text changes when text is added at its end. *)
From Coq Require Import Lia.
From Verif Require Import Base BaseFacts Utf8 Utf8Facts Regex RegexSpec RegexFacts.
Local Open Scope nat_scope.

(** Text that consists of complete characters. *)
Definition whole (s : bytes) : Prop := exists l, Forall scalar l /\ s = encode_runes l.
Lemma whole_decode s : whole s -> s = [] \/ exists c u, whole u /\ length u < length s /\ forall t, decode_rune (s ++ t) = Some (c, u ++ t).
Proof.
  intros (l & H & ->). destruct H as [|c l Hc Hl]; [left; reflexivity|]. right. exists c, (encode_runes l). split; [exists l; auto|].
  assert (E : encode_runes (c :: l) = encode_rune c ++ encode_runes l) by reflexivity. rewrite E. split.
  - rewrite app_length. assert (encode_rune c <> []). { intros Y. pose proof (decode_encode c [] Hc) as D. rewrite Y in D. discriminate. } destruct (encode_rune c); [congruence|cbn [length]; lia].
  - intros t. rewrite <- app_assoc. apply decode_encode. exact Hc.
Qed.
Lemma whole_app a b : whole a -> whole b -> whole (a ++ b).
Proof. intros (l & H & ->) (m & K & ->). exists (l ++ m). split; [apply Forall_app; auto|]. unfold encode_runes. rewrite flat_map_app. reflexivity. Qed.
Lemma whole_ascii s : ascii s -> whole s.
Proof. intros H. exists s. split; [|rewrite encode_ascii; auto]. eapply Forall_impl; [|exact H]. unfold scalar. intros c Hc. cbv beta in Hc. lia. Qed.
Lemma whole_cat a b : whole a -> whole (a ++ b) -> whole b.
Proof.
  intros (l & H & ->). revert b. induction H as [|c l Hc Hl IH]; intros b W; [exact W|].
  assert (E : encode_runes (c :: l) = encode_rune c ++ encode_runes l) by reflexivity. rewrite E, <- app_assoc in W.
  destruct (whole_decode _ W) as [X|(c' & u & U & _ & D)].
  - apply app_eq_nil in X as [X _]. pose proof (decode_encode c [] Hc) as D. rewrite X in D. discriminate.
  - specialize (D []). rewrite !app_nil_r in D. rewrite decode_encode in D by exact Hc. injection D as _ D. apply IH. rewrite D. exact U.
Qed.

(** No end anchor. *)
Fixpoint endless (r : regex) : bool :=
  match r with
  | REmpty | RClass _ | RBegin => true
  | REnd => false
  | RCat a b | RAlt a b => endless a && endless b
  | RStar _ a | RGroup _ a => endless a
  end.

Section Grow.
  Variables (L : nat) (t : bytes).
  (** The outcome [o'] on the longer text: that of the shorter text, or a match that ends beyond it. *)
  Definition grown (o o' : option (nat * caps)) : Prop :=
    match o' with
    | None => o = None
    | Some (e', _) => L < e' \/ exists cs, o = Some (e', cs)
    end.
  Definition beyond (o' : option (nat * caps)) : Prop := match o' with None => True | Some (e', _) => L < e' end.
  Definition grows (k k' : cont) : Prop :=
    (forall p s cs, whole s -> p + length s = L -> grown (k p s cs) (k' p (s ++ t) cs)) /\
    (forall p s cs, L < p -> beyond (k' p s cs)).

  Lemma beyond_rmatch r k' p s cs : (forall p s cs, L < p -> beyond (k' p s cs)) -> L < p -> beyond (rmatch r k' p s cs).
  Proof.
    intros K H. destruct (rmatch r k' p s cs) as [[e c]|] eqn:E; [|exact I]. apply rmatch_sound in E as (p' & s' & cs' & D & E).
    assert (p <= p') by (apply derives_len in D; lia). specialize (K p' s' cs' ltac:(lia)). rewrite E in K. exact K.
  Qed.
  Lemma beyond_star g a k' f : forall p s cs, (forall p s cs, L < p -> beyond (k' p s cs)) -> L < p -> beyond (star_loop g (rmatch a) k' f p s cs).
  Proof.
    induction f as [|f IH]; intros p s cs K H; [exact I|]. rewrite star_loop_S.
    assert (M : beyond (rmatch a (fun p' s' cs' => if (len s' <? len s)%nat then star_loop g (rmatch a) k' f p' s' cs' else None) p s cs)).
    { apply beyond_rmatch; [|exact H]. intros p1 s1 cs1 H1. destruct (_ <? _); [apply IH; auto|exact I]. }
    pose proof (K p s cs H) as K0. destruct g.
    - destruct (rmatch a _ p s cs) as [[e c]|]; [exact M|exact K0].
    - destruct (k' p s cs) as [[e c]|]; [exact K0|exact M].
  Qed.
  Lemma grown_or o1 o2 o1' o2' : grown o1 o1' -> grown o2 o2' ->
    grown (match o1 with Some x => Some x | None => o2 end) (match o1' with Some x => Some x | None => o2' end).
  Proof.
    destruct o1' as [[e' c']|]; cbn; [intros [H|[cs ->]] _; [left; exact H|right; eauto]|]. intros ->. auto.
  Qed.
  Lemma grow_rmatch r : forall k k' p s cs, endless r = true -> grows k k' -> whole s -> p + length s = L ->
    grown (rmatch r k p s cs) (rmatch r k' p (s ++ t) cs).
  Proof.
    induction r as [|k0|a IHa b IHb|a IHa b IHb|g a IHa|n a IHa| |]; intros k k' p s cs F K W P; cbn [endless] in F; try (apply andb_prop in F as [F1 F2]).
    - apply K; auto.
    - cbn [rmatch]. destruct (whole_decode s W) as [->|(c & u & U & Lu & D)].
      + cbn [app decode_rune]. destruct (decode_rune t) as [[c u]|] eqn:D; [|reflexivity]. destruct (cls_match k0 c); [|reflexivity].
        cbn [length] in P. assert (X : len u < len t) by (eapply decode_rune_lt; exact D).
        assert (B : beyond (k' (p + (len t - len u)) u cs)) by (apply K; lia). unfold beyond in B. unfold grown. destruct (k' _ u cs) as [[e c0]|]; [left; exact B|reflexivity].
      + rewrite D. specialize (D []). rewrite !app_nil_r in D. rewrite D. destruct (cls_match k0 c); [|reflexivity].
        replace (len (s ++ t) - len (u ++ t)) with (len s - len u) by (unfold len; rewrite !app_length; lia). apply K; [exact U|]. unfold len. lia.
    - cbn [rmatch]. apply IHa; auto. split; [intros; apply IHb; auto|]. intros; apply beyond_rmatch; auto. apply K.
    - cbn [rmatch]. apply grown_or; [apply IHa|apply IHb]; auto.
    - rewrite !rmatch_star.
      assert (G : forall f f' p s cs, whole s -> p + length s = L -> length s < f -> length (s ++ t) < f' -> grown (star_loop g (rmatch a) k f p s cs) (star_loop g (rmatch a) k' f' p (s ++ t) cs)).
      { clear p s cs W P. induction f as [|f IH]; intros f' p s cs W P B B'; [lia|]. destruct f' as [|f']; [lia|]. rewrite !star_loop_S.
        assert (M : grown (rmatch a (fun p' s' cs' => if (len s' <? len s)%nat then star_loop g (rmatch a) k f p' s' cs' else None) p s cs)
                          (rmatch a (fun p' s' cs' => if (len s' <? len (s ++ t))%nat then star_loop g (rmatch a) k' f' p' s' cs' else None) p (s ++ t) cs)).
        { apply IHa; auto. split.
          - intros p1 s1 cs1 W1 P1. replace (len (s1 ++ t) <? len (s ++ t))%nat with (len s1 <? len s)%nat.
            2:{ unfold len. rewrite !app_length. destruct (length s1 <? length s) eqn:E; symmetry; [apply Nat.ltb_lt in E; apply Nat.ltb_lt; lia|apply Nat.ltb_ge in E; apply Nat.ltb_ge; lia]. }
            destruct (len s1 <? len s)%nat eqn:E; [|reflexivity]. apply Nat.ltb_lt in E. unfold len in E. apply IH; auto; [lia|]. rewrite app_length in *. lia.
          - intros p1 s1 cs1 H1. destruct (_ <? _)%nat; [|exact I]. apply beyond_star; auto. apply K. }
        assert (K0 : grown (k p s cs) (k' p (s ++ t) cs)) by (apply K; auto).
        destruct g; apply grown_or; auto. }
      apply G; auto; unfold len; lia.
    - cbn [rmatch]. apply IHa; auto. split; [intros; apply K; auto|]. intros; apply K; auto.
    - cbn [rmatch]. destruct (p =? 0)%nat; [apply K; auto|reflexivity].
    - discriminate.
  Qed.
End Grow.

(** An expression that can only match at the beginning and has no end anchor. *)
Definition at_start (x : re) : bool := match re_ast x with RCat RBegin r => endless r | _ => false end.
Lemma search_start r f : forall p s, 0 < p -> search f (RCat RBegin r) p s = None.
Proof.
  induction f as [|f IH]; intros p s H; cbn [search rmatch]; replace (p =? 0)%nat with false by (symmetry; apply Nat.eqb_neq; lia); [reflexivity|].
  destruct (decode_rune s) as [[c u]|]; [|reflexivity]. apply IH. lia.
Qed.
Lemma find_start x s : at_start x = true -> re_find x s = match rmatch (re_ast x) final 0 s [] with Some (e, cs) => Some {| m_start := 0; m_end := e; m_caps := cs |} | None => None end.
Proof.
  unfold at_start. intros A. destruct (re_ast x) as [| |a b| | | | |] eqn:R; try discriminate. destruct a; try discriminate.
  unfold re_find, find_from. rewrite R. rewrite skipn_O, Nat.sub_0_r. destruct (rmatch (RCat RBegin b) final 0 s []) as [[e cs]|] eqn:M.
  - destruct (len s); cbn [search]; rewrite M; reflexivity.
  - destruct (len s); cbn [search]; rewrite M; [reflexivity|]. destruct (decode_rune s) as [[c u]|] eqn:D; [|reflexivity]. rewrite search_start; [reflexivity|]. apply decode_rune_lt in D. unfold len. lia.
Qed.
Lemma find_grow x s t : at_start x = true -> whole s ->
  match re_find x (s ++ t) with
  | None => re_find x s = None
  | Some m' => m_start m' = 0 /\ (length s < m_end m' \/ exists m, re_find x s = Some m /\ m_end m = m_end m')
  end.
Proof.
  intros A W. rewrite !find_start by exact A. unfold at_start in A.
  assert (E : endless (re_ast x) = true) by (destruct (re_ast x) as [| |a b| | | | |]; try discriminate; destruct a; try discriminate; exact A).
  pose proof (grow_rmatch (length s) t (re_ast x) final final 0 s [] E) as G.
  assert (K : grows (length s) t final final) by (split; [intros p s0 cs0 _ _; right; eexists; reflexivity|intros p s0 cs0 H; exact H]).
  specialize (G K W eq_refl). unfold grown in G. destruct (rmatch _ final 0 (s ++ t) []) as [[e' c']|].
  - split; [reflexivity|]. destruct G as [G|[cs G]]; [left; exact G|right]. rewrite G. eauto.
  - rewrite G. reflexivity.
Qed.

(** ** Matching again on a text with the same beginning *)
Section Again.
  Variables (L : nat) (x t : bytes).
  Definition far (o' : option (nat * caps)) : Prop := match o' with None => True | Some (e', _) => L <= e' end.
  (** If the first text matched exactly up to [L], the second matches at least that far; if the first did not match, the second
      does not match less. *)
  Definition again (o o' : option (nat * caps)) : Prop :=
    match o with
    | None => far o'
    | Some (e, _) => e = L -> exists e' cs, o' = Some (e', cs) /\ L <= e'
    end.
  Definition agains (k k' : cont) : Prop :=
    (forall p u cs, whole u -> p + length u = L -> again (k p (u ++ x) cs) (k' p (u ++ t) cs)) /\
    (forall p s cs, L < p -> beyond L (k p s cs)) /\
    (forall p s cs, L <= p -> far (k' p s cs)).
  Lemma far_rmatch r k' p s cs : (forall p s cs, L <= p -> far (k' p s cs)) -> L <= p -> far (rmatch r k' p s cs).
  Proof.
    intros K H. destruct (rmatch r k' p s cs) as [[e c]|] eqn:E; [|exact I]. apply rmatch_sound in E as (p' & s' & cs' & D & E).
    assert (p <= p') by (apply derives_len in D; lia). specialize (K p' s' cs' ltac:(lia)). rewrite E in K. exact K.
  Qed.
  Lemma far_star g a k' f : forall p s cs, (forall p s cs, L <= p -> far (k' p s cs)) -> L <= p -> far (star_loop g (rmatch a) k' f p s cs).
  Proof.
    induction f as [|f IH]; intros p s cs K H; [exact I|]. rewrite star_loop_S.
    assert (M : far (rmatch a (fun p' s' cs' => if (len s' <? len s)%nat then star_loop g (rmatch a) k' f p' s' cs' else None) p s cs)).
    { apply far_rmatch; [|exact H]. intros p1 s1 cs1 H1. destruct (_ <? _); [apply IH; auto|exact I]. }
    pose proof (K p s cs H) as K0. destruct g.
    - destruct (rmatch a _ p s cs) as [[e c]|]; [exact M|exact K0].
    - destruct (k' p s cs) as [[e c]|]; [exact K0|exact M].
  Qed.
  Lemma again_or o1 o2 o1' o2' : again o1 o1' -> again o2 o2' ->
    again (match o1 with Some y => Some y | None => o2 end) (match o1' with Some y => Some y | None => o2' end).
  Proof.
    destruct o1 as [[e c]|]; cbn; intros H1 H2.
    - intros X. destruct (H1 X) as (e' & cs & -> & B). eauto.
    - destruct o1' as [[e' c']|]; [|exact H2]. cbn in H1. destruct o2 as [[e2 c2]|]; cbn; [intros _; eauto|exact H1].
  Qed.
  Lemma again_rmatch r : forall k k' p u cs, endless r = true -> agains k k' -> whole u -> p + length u = L ->
    again (rmatch r k p (u ++ x) cs) (rmatch r k' p (u ++ t) cs).
  Proof.
    induction r as [|k0|a IHa b IHb|a IHa b IHb|g a IHa|n a IHa| |]; intros k k' p u cs F K W P; cbn [endless] in F; try (apply andb_prop in F as [F1 F2]).
    - apply K; auto.
    - cbn [rmatch]. destruct (whole_decode u W) as [->|(c & v & V & Lv & D)].
      + cbn [app]. cbn [length] in P. destruct K as (_ & K2 & K3).
        assert (FAR : far (match decode_rune t with Some (x0, t0) => if cls_match k0 x0 then k' (p + (len t - len t0)) t0 cs else None | None => None end)).
        { destruct (decode_rune t) as [[c v]|]; [|exact I]. destruct (cls_match k0 c); [apply K3; lia|exact I]. }
        destruct (decode_rune x) as [[c v]|] eqn:D; [|exact FAR]. destruct (cls_match k0 c); [|exact FAR]. apply decode_rune_lt in D.
        specialize (K2 (p + (len x - len v)) v cs ltac:(unfold len; lia)). unfold again. destruct (k _ v cs) as [[e c0]|]; [|exact FAR]. cbn in K2. lia.
      + rewrite !D. destruct (cls_match k0 c); [|exact I].
        replace (len (u ++ t) - len (v ++ t)) with (len u - len v) by (unfold len; rewrite !app_length; lia). replace (len (u ++ x) - len (v ++ x)) with (len u - len v) by (unfold len; rewrite !app_length; lia).
        apply K; [exact V|]. unfold len. lia.
    - cbn [rmatch]. apply IHa; auto. split; [intros; apply IHb; auto|]. split; [intros; apply beyond_rmatch; auto; apply K|]. intros; apply far_rmatch; auto; apply K.
    - cbn [rmatch]. apply again_or; [apply IHa|apply IHb]; auto.
    - rewrite !rmatch_star.
      assert (G : forall f f' p u cs, whole u -> p + length u = L -> length (u ++ x) < f -> length (u ++ t) < f' -> again (star_loop g (rmatch a) k f p (u ++ x) cs) (star_loop g (rmatch a) k' f' p (u ++ t) cs)).
      { clear p u cs W P. induction f as [|f IH]; intros f' p u cs W P B B'; [lia|]. destruct f' as [|f']; [lia|]. rewrite !star_loop_S.
        assert (M : again (rmatch a (fun p' s' cs' => if (len s' <? len (u ++ x))%nat then star_loop g (rmatch a) k f p' s' cs' else None) p (u ++ x) cs)
                          (rmatch a (fun p' s' cs' => if (len s' <? len (u ++ t))%nat then star_loop g (rmatch a) k' f' p' s' cs' else None) p (u ++ t) cs)).
        { apply IHa; auto. split; [|split].
          - intros p1 u1 cs1 W1 P1. assert (X : forall y, (len (u1 ++ y) <? len (u ++ y))%nat = (len u1 <? len u)%nat).
            { intros y. unfold len. rewrite !app_length. destruct (length u1 <? length u) eqn:E; [apply Nat.ltb_lt in E; apply Nat.ltb_lt; lia|apply Nat.ltb_ge in E; apply Nat.ltb_ge; lia]. }
            rewrite !X. destruct (len u1 <? len u)%nat eqn:E; [|exact I]. apply Nat.ltb_lt in E. unfold len in E. apply IH; auto; rewrite app_length in *; lia.
          - intros p1 s1 cs1 H1. destruct (_ <? _)%nat; [|exact I]. apply beyond_star; auto. apply K.
          - intros p1 s1 cs1 H1. destruct (_ <? _)%nat; [|exact I]. apply far_star; auto. apply K. }
        assert (K0 : again (k p (u ++ x) cs) (k' p (u ++ t) cs)) by (apply K; auto).
        destruct g; apply again_or; auto. }
      apply G; auto; unfold len; lia.
    - cbn [rmatch]. destruct K as (K1 & K2 & K3). apply IHa; auto. split; [intros; apply K1; auto|]. split; intros; auto.
    - cbn [rmatch]. destruct (p =? 0)%nat; [apply K; auto|exact I].
    - discriminate.
  Qed.
End Again.

(** A lower bound for the length of a match. *)
Fixpoint minlen (r : regex) : nat :=
  match r with
  | REmpty | RBegin | REnd | RStar _ _ => 0
  | RClass _ => 1
  | RCat a b => minlen a + minlen b
  | RAlt a b => Nat.min (minlen a) (minlen b)
  | RGroup _ a => minlen a
  end.
Lemma minlen_derives r p s cs p' s' cs' : derives r p s cs p' s' cs' -> p + minlen r <= p'.
Proof.
  induction 1; cbn [minlen]; try lia. (* class *) apply decode_rune_lt in H. unfold len. lia.
Qed.
(** Each alternative has no end anchor or needs at least four bytes. *)
Fixpoint alt_ok (r : regex) : bool :=
  match r with
  | RAlt a b => alt_ok a && alt_ok b
  | _ => endless r || (4 <=? minlen r)%nat
  end.
Definition starts_ok (x : re) : bool := match re_ast x with RCat RBegin r => alt_ok r | _ => false end.
Lemma alt_again r E x t : alt_ok r = true -> whole E -> length E <= 3 -> again (length E) (rmatch r final 0 (E ++ x) []) (rmatch r final 0 (E ++ t) []).
Proof.
  intros A W B.
  assert (S : forall r, endless r || (4 <=? minlen r) = true -> again (length E) (rmatch r final 0 (E ++ x) []) (rmatch r final 0 (E ++ t) [])).
  { clear r A. intros r A. apply orb_prop in A as [A|A].
    - apply again_rmatch; auto. split; [|split].
      + intros p u cs _ P. unfold again, final. intros ->. eauto.
      + intros p s cs H. exact H.
      + intros p s cs H. exact H.
    - apply Nat.leb_le in A. unfold again. destruct (rmatch r final 0 (E ++ x) []) as [[e cs]|] eqn:M.
      + intros ->. apply rmatch_sound in M as (p' & s' & cs' & D & K). injection K as K _. subst p'. apply minlen_derives in D. lia.
      + unfold far. destruct (rmatch r final 0 (E ++ t) []) as [[e cs]|] eqn:M'; [|exact I]. apply rmatch_sound in M' as (p' & s' & cs' & D & K). injection K as K _. subst p'. apply minlen_derives in D. lia. }
  induction r as [|k0|a IHa b IHb|a IHa b IHb|g a IHa|n a IHa| |]; try (apply S; exact A).
  cbn [alt_ok] in A. apply andb_prop in A as [A1 A2]. cbn [rmatch]. apply again_or; auto.
Qed.
Lemma starts_find x s : starts_ok x = true -> re_find x s = match rmatch (re_ast x) final 0 s [] with Some (e, cs) => Some {| m_start := 0; m_end := e; m_caps := cs |} | None => None end.
Proof.
  unfold starts_ok. intros A. destruct (re_ast x) as [| |a b| | | | |] eqn:R; try discriminate. destruct a; try discriminate.
  unfold re_find, find_from. rewrite R. rewrite skipn_O, Nat.sub_0_r. destruct (rmatch (RCat RBegin b) final 0 s []) as [[e cs]|] eqn:M.
  - destruct (len s); cbn [search]; rewrite M; reflexivity.
  - destruct (len s); cbn [search]; rewrite M; [reflexivity|]. destruct (decode_rune s) as [[c u]|] eqn:D; [|reflexivity]. rewrite search_start; [reflexivity|]. apply decode_rune_lt in D. unfold len. lia.
Qed.
(** If the expression matched exactly [E] at the beginning of some text, then on any text that begins with [E] it matches [E] or
    more. *)
Lemma find_again x E y t m : starts_ok x = true -> whole E -> length E <= 3 -> re_find x (E ++ y) = Some m -> m_end m = length E ->
  exists m', re_find x (E ++ t) = Some m' /\ length E <= m_end m'.
Proof.
  intros A W B. rewrite !starts_find by exact A. unfold starts_ok in A. destruct (re_ast x) as [| |a b| | | | |] eqn:R; try discriminate. destruct a; try discriminate.
  cbn [rmatch Nat.eqb]. pose proof (alt_again b E y t A W B) as G. destruct (rmatch b final 0 (E ++ y) []) as [[e cs]|]; [|discriminate].
  intros H X. injection H as <-. cbn [m_end] in X. destruct (G X) as (e' & cs' & -> & B'). eexists. split; [reflexivity|exact B'].
Qed.
(** The part of a text that an expression consumes ends at a character. *)
Lemma whole_prefix r p s cs p' s' cs' : derives r p s cs p' s' cs' -> whole s -> exists w, whole w /\ s = w ++ s'.
Proof.
  assert (N : whole []) by (exists []; auto).
  induction 1; intros W; try (exists []; split; [exact N|reflexivity]); auto.
  - destruct (whole_decode s W) as [->|(c' & u & U & _ & D)]; [discriminate|]. specialize (D []). rewrite !app_nil_r in D. rewrite D in H. injection H as -> ->.
    destruct W as ([|c0 l] & Hl & ->); [discriminate|]. inversion Hl as [|? ? Hc Hl']; subst. assert (E : encode_runes (c0 :: l) = encode_rune c0 ++ encode_runes l) by reflexivity.
    rewrite E in D |- *. rewrite decode_encode in D by exact Hc. injection D as -> ->. exists (encode_rune c). split; [|reflexivity]. exists [c]. split; [auto|]. unfold encode_runes. cbn [flat_map]. rewrite app_nil_r. reflexivity.
  - destruct (IHderives1 W) as (w1 & W1 & ->). destruct IHderives2 as (w2 & W2 & ->); [eapply whole_cat; [exact W1|exact W]|]. exists (w1 ++ w2). split; [apply whole_app; auto|]. rewrite app_assoc. reflexivity.
  - destruct (IHderives1 W) as (w1 & W1 & ->). destruct IHderives2 as (w2 & W2 & ->); [eapply whole_cat; [exact W1|exact W]|]. exists (w1 ++ w2). split; [apply whole_app; auto|]. rewrite app_assoc. reflexivity.
Qed.

(** The number of characters an expression takes, if it is always the same. *)
Fixpoint width (r : regex) : option nat :=
  match r with
  | REmpty | RBegin | REnd => Some 0
  | RClass _ => Some 1
  | RCat a b => match width a, width b with Some i, Some j => Some (i + j) | _, _ => None end
  | RAlt a b => match width a, width b with Some i, Some j => if i =? j then Some i else None | _, _ => None end
  | RStar _ _ => None
  | RGroup _ a => width a
  end.
Lemma width_derives r p s cs p' s' cs' : derives r p s cs p' s' cs' -> Forall (fun c => (c < 128)%N) s -> Forall (fun c => (c < 128)%N) s' /\ forall n, width r = Some n -> p' = p + n.
Proof.
  induction 1 as [|? ? ? s t ? D|? ? ? ? ? ? ? ? ? ? ? _ IH1 _ IH2|? ? ? ? ? ? ? ? _ IH|? ? ? ? ? ? ? ? _ IH| |? ? ? ? ? ? ? ? ? ? ? _ IH1 _ _ IH2|? ? ? ? ? ? ? ? _ IH| |]; cbn [width]; intros F.
  - split; [exact F|]. intros n X. injection X as <-. lia.
  - destruct F as [|a l Ha F]; [discriminate|]. rewrite decode_ascii in D by exact Ha. injection D as <- <-. split; [exact F|]. intros n X. injection X as <-. unfold len. cbn [length]. lia.
  - destruct (IH1 F) as [F1 W1]. destruct (IH2 F1) as [F2 W2]. split; [exact F2|]. destruct (width a) as [i|]; [|discriminate]. destruct (width b) as [j|]; [|discriminate]. intros n X. injection X as <-. rewrite (W2 j eq_refl), (W1 i eq_refl). lia.
  - destruct (IH F) as [F1 W1]. split; [exact F1|]. destruct (width a) as [i|]; [|discriminate]. destruct (width b) as [j|]; [|discriminate]. destruct (i =? j); [|discriminate]. intros n X. injection X as <-. auto.
  - destruct (IH F) as [F1 W1]. split; [exact F1|]. destruct (width a) as [i|]; [|discriminate]. destruct (width b) as [j|]; [|discriminate]. destruct (i =? j) eqn:Q; [|discriminate]. apply Nat.eqb_eq in Q. intros n X. injection X as <-. subst j. auto.
  - split; [exact F|discriminate].
  - destruct (IH1 F) as [F1 _]. destruct (IH2 F1) as [F2 _]. split; [exact F2|discriminate].
  - exact (IH F).
  - split; [exact F|]. intros n X. injection X as <-. reflexivity.
  - split; [constructor|]. intros n X. injection X as <-. lia.
Qed.
(** The same for texts that begin with the character [c]: [None] if there is no match, [Some None] if the number may vary. *)
Fixpoint width_at (c : N) (r : regex) : option (option nat) :=
  match r with
  | REmpty | RBegin => Some (Some 0)
  | REnd => None
  | RClass k => if cls_match k c then Some (Some 1) else None
  | RCat a b =>
      match width_at c a with
      | None => None
      | Some (Some 0) => width_at c b
      | Some (Some i) => match width b with Some j => Some (Some (i + j)) | None => Some None end
      | Some None => Some None
      end
  | RAlt a b =>
      match width_at c a, width_at c b with
      | None, w | w, None => w
      | Some (Some i), Some (Some j) => if i =? j then Some (Some i) else Some None
      | _, _ => Some None
      end
  | RStar _ _ => Some None
  | RGroup _ a => width_at c a
  end.
Lemma derives_left r p s cs p' s' cs' : derives r p s cs p' s' cs' -> p + length s = p' + length s'.
Proof.
  induction 1 as [|? ? ? s t ? D|? ? ? ? ? ? ? ? ? ? ? _ IH1 _ IH2|? ? ? ? ? ? ? ? _ IH|? ? ? ? ? ? ? ? _ IH| |? ? ? ? ? ? ? ? ? ? ? _ IH1 _ _ IH2|? ? ? ? ? ? ? ? _ IH| |]; try lia. apply decode_rune_lt in D. unfold len. lia.
Qed.
Lemma derives_suffix r p s cs p' s' cs' : derives r p s cs p' s' cs' -> exists u, s = u ++ s'.
Proof.
  induction 1 as [|? ? ? s t ? D|? ? ? ? ? ? ? ? ? ? ? _ [u IH1] _ [v IH2]|? ? ? ? ? ? ? ? _ IH|? ? ? ? ? ? ? ? _ IH| |? ? ? ? ? ? ? ? ? ? ? _ [u IH1] _ _ [v IH2]|? ? ? ? ? ? ? ? _ IH| |]; auto; try (exists []; reflexivity).
  - apply decode_rune_spec in D as (w & E & _). eauto.
  - exists (u ++ v). rewrite IH1, IH2, app_assoc. reflexivity.
  - exists (u ++ v). rewrite IH1, IH2, app_assoc. reflexivity.
Qed.
Lemma width_at_derives c r p s cs p' s' cs' : derives r p s cs p' s' cs' -> forall t, s = c :: t -> Forall (fun c => (c < 128)%N) s ->
  match width_at c r with None => False | Some (Some n) => p' = p + n | Some None => True end.
Proof.
  induction 1 as [|? ? ? s t ? D K|a b p s cs p1 s1 cs1 p2 s2 cs2 D1 IH1 D2 IH2|? ? ? ? ? ? ? ? _ IH|? ? ? ? ? ? ? ? _ IH| | |? ? ? ? ? ? ? ? _ IH| |]; cbn [width_at]; intros u E F; auto; try lia; try discriminate.
  - subst s. inversion F as [|? ? Hc F']; subst. rewrite decode_ascii in D by exact Hc. injection D as <- <-. rewrite K. unfold len. cbn [length]. lia.
  - specialize (IH1 u E F). destruct (width_at c a) as [[[|i]|]|]; [| |exact I|exact IH1].
    + assert (s1 = s). { apply derives_left in D1 as L. destruct (derives_suffix _ _ _ _ _ _ _ D1) as [v V]. rewrite V, app_length in L. destruct v; [symmetry; exact V|cbn [length] in L; lia]. }
      subst s1. specialize (IH2 u E F). replace p1 with p in IH2 by lia. exact IH2.
    + destruct (width_derives _ _ _ _ _ _ _ D1 F) as [F1 _]. destruct (width_derives _ _ _ _ _ _ _ D2 F1) as [_ W]. destruct (width b) as [j|]; [|exact I]. rewrite (W j eq_refl). lia.
  - specialize (IH u E F). destruct (width_at c a) as [[i|]|], (width_at c b) as [[j|]|]; auto; try contradiction. destruct (i =? j) eqn:Q; [exact IH|exact I].
  - specialize (IH u E F). destruct (width_at c a) as [[i|]|], (width_at c b) as [[j|]|]; auto; try contradiction. destruct (i =? j) eqn:Q; [|exact I]. apply Nat.eqb_eq in Q. subst j. exact IH.
  - exact (IH u E F).
Qed.
Lemma find_width x c s m : starts_ok x = true -> Forall (fun c => (c < 128)%N) (c :: s) -> re_find x (c :: s) = Some m ->
  match width_at c (re_ast x) with None => False | Some (Some n) => m_end m = n | Some None => True end.
Proof.
  intros A F H. apply re_find_sound in H as (_ & _ & D & _). assert (S : m_start m = 0).
  { unfold starts_ok in A. destruct (re_ast x) as [| |a b| | | | |]; try discriminate. destruct a; try discriminate. inversion D as [| |? ? ? ? ? ? ? ? ? ? ? D1| | | | | | |]; subst. inversion D1. reflexivity. }
  rewrite S in D. exact (width_at_derives c _ _ _ _ _ _ _ D s eq_refl F).
Qed.
