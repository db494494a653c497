(** Proofs about letters in the text of a number. *)
From Verif Require Import Base BaseFacts Utf8 Utf8Facts Regex RegexSpec RegexFacts LangFacts Consts Types Normalize NormalizeSpec NormalizeFacts Validate Format Parse
  NumberSpec NumberFacts MetaSpec ValidateSpec ValidateFacts Container Shipped MetaFacts FormatSpec TextFacts FormatFacts FormatMore ParseSpec ParseFacts ParseMore ContextFacts
  RoundSpec DerivFacts RoundTripFacts PropsValidate RuleSpec RuleFacts RuleMore ReadSpec ReadFacts ReadMore ExtFacts DialFacts AlphaSpec.
Local Opaque compile re_find re_replace_all.

Definition abc : list N := map N.of_nat (seq 65 26 ++ seq 97 26).
Definition letters79 : list N := letters27 ++ abc.
Lemma abc_iff c : In c abc <-> ascii_letter c = true.
Proof.
  unfold abc, ascii_letter. rewrite orb_true_iff, !in_rng_iff, in_map_iff. split.
  - intros (n & <- & I). apply in_app_or in I. rewrite !in_seq in I. lia.
  - intros H. exists (N.to_nat c). split; [lia|]. apply in_or_app. rewrite !in_seq. lia.
Qed.
Lemma is_dig c : is_digit c = dig c. Proof. reflexivity. Qed.
Lemma abc_digit c : ascii_letter c = true -> is_digit c = false.
Proof. unfold ascii_letter, is_digit. rewrite orb_true_iff, !in_rng_iff. unfold in_rng. lia. Qed.
Lemma vanity_in s c : vanity s -> In c (runes s) -> In c letters79.
Proof.
  intros (H & _) I. unfold letters79, letters27. rewrite !in_app_iff. destruct (H _ I) as [D|[D|D]]; [left; left; apply digit_in10; exact D|right; apply abc_iff; exact D|auto].
Qed.
Lemma alpha_plus : alive letters79 (re_ast plusCharsPattern) = false. Proof. vm_compute. reflexivity. Qed.
Definition plain_ext : list N := 43 :: filter (fun c => negb (existsb (N.eqb c) (bs "XxIi"))) letters79.
Lemma alpha_ext : alive plain_ext (re_ast extnPattern) = false. Proof. vm_compute. reflexivity. Qed.

(** * Viable *)
Lemma tail_letters : forallb (cls_match vp_tail) letters79 = true. Proof. vm_compute. reflexivity. Qed.
Lemma pieces_tail a b : (forall c, In c a -> In c letters27) -> (3 <= length (filter dig a))%nat -> (forall c, In c b -> In c letters79) -> lang vp_b (a ++ b).
Proof.
  intros A L B. rewrite vp_b_shape. destruct (length (filter dig a)) as [|[|[|n]]] eqn:E; try lia.
  destruct (to_digit a _ A E) as (u1 & c1 & v1 & -> & U1 & D1 & E1).
  assert (A1 : forall c, In c v1 -> In c letters27) by (intros c I; apply A; apply in_or_app; right; right; auto).
  destruct (to_digit v1 _ A1 E1) as (u2 & c2 & v2 & -> & U2 & D2 & E2).
  assert (A2 : forall c, In c v2 -> In c letters27) by (intros c I; apply A1; apply in_or_app; right; right; auto).
  destruct (to_digit v2 _ A2 E2) as (u3 & c3 & v3 & -> & U3 & D3 & E3).
  replace ((u1 ++ c1 :: u2 ++ c2 :: u3 ++ c3 :: v3) ++ b) with (((u1 ++ [c1]) ++ (u2 ++ [c2]) ++ (u3 ++ [c3]) ++ []) ++ ((v3 ++ b) ++ [])) by (rewrite <- !app_assoc; cbn [app]; rewrite <- !app_assoc; cbn [app]; rewrite <- !app_assoc; cbn [app]; rewrite app_nil_r; reflexivity).
  constructor.
  - constructor; [apply piece_lang; auto|]. constructor; [apply piece_lang; auto|]. constructor; [apply piece_lang; auto|constructor].
  - constructor; [|apply L_alt_r; constructor]. pose proof tail_letters as P. apply star_lang. rewrite forallb_forall in *. intros c I. apply P. apply in_app_or in I as [I|I]; [|auto].
    apply in_or_app. left. apply A2. apply in_or_app. right. right. auto.
Qed.
Lemma filter_le {A} (f : A -> bool) l : (length (filter f l) <= length l)%nat.
Proof. induction l as [|c l IH]; cbn [filter length]; [lia|destruct (f c); cbn [length]; lia]. Qed.
Lemma vanity_viable p s : p = [] \/ p = [43] -> vanity s -> isViablePhoneNumber (p ++ s) = true.
Proof.
  intros Hp V. pose proof V as (H & (a & b & E & Na & L) & _ & _). unfold isViablePhoneNumber.
  assert (Ls : (2 <= length s)%nat).
  { pose proof (filter_le is_digit a). pose proof (runes_short s) as R. rewrite E, app_length in R. unfold bytes in *. lia. }
  replace (Nat.ltb (len (p ++ s)) minLengthForNSN) with false by (symmetry; apply Nat.ltb_ge; unfold len, minLengthForNSN; rewrite app_length; lia).
  rewrite (anchored_match _ _ _ vp_shape); [|vm_compute; reflexivity]. rewrite pre_runes by auto. rewrite <- (app_nil_r (p ++ runes s)). constructor; [|constructor]. constructor. apply L_alt_r. constructor.
  - apply star_lang. destruct Hp as [-> | ->]; vm_compute; reflexivity.
  - rewrite E. apply pieces_tail; auto.
    + intros c I. unfold letters27. apply in_or_app. destruct (H c) as [D|[D|D]]; [rewrite E; apply in_or_app; auto|left; apply digit_in10; exact D|rewrite Na in D by auto; discriminate|auto].
    + intros c I. apply (vanity_in s); auto. rewrite E. apply in_or_app. auto.
Qed.

(** * No extension, nothing cut off *)
Lemma ext_not_empty : can_be_empty (re_ast extnPattern) = false. Proof. vm_compute. reflexivity. Qed.
Lemma ext_letter : forallb (fun k => forallb (fun c => negb (cls_match k c)) abc) (last_classes (re_ast extnPattern)) = true. Proof. vm_compute. reflexivity. Qed.
Lemma letter_end x z : ascii_letter z = true -> re_find extnPattern (x ++ [z]) = None.
Proof.
  intros Hz. destruct (re_find extnPattern (x ++ [z])) as [m|] eqn:F; [exfalso|reflexivity]. pose proof (re_find_sound _ _ _ F) as (_ & _ & D & _).
  pose proof (ends_derives _ _ _ _ _ _ _ D ext_anchored) as E0. apply match_reads in F as (u & w & v & E & L & Ev). rewrite E0, runes_nil in Ev. subst v. rewrite app_nil_r in E.
  rewrite runes_app_ascii in E. 2:{ constructor; [|constructor]. apply abc_iff in Hz. unfold ascii_letter in *. apply abc_iff in Hz. unfold ascii_letter in Hz. apply orb_true_iff in Hz. rewrite !in_rng_iff in Hz. lia. }
  destruct w as [|y w] using rev_ind.
  - pose proof (can_be_empty_ok _ _ L eq_refl) as X. rewrite ext_not_empty in X. discriminate.
  - rewrite app_assoc in E. apply app_inj_tail in E as [_ <-]. destruct (last_classes_ok _ _ L w z eq_refl) as (k & I & M). pose proof ext_letter as Y. rewrite forallb_forall in Y. specialize (Y _ I). rewrite forallb_forall in Y.
    apply abc_iff in Hz. specialize (Y _ Hz). rewrite M in Y. discriminate.
Qed.
Lemma vanity_ext p s : p = [] \/ p = [43] -> vanity s -> maybeStripExtension (p ++ s) = (p ++ s, []).
Proof.
  intros Hp V. unfold maybeStripExtension. assert (E : re_find extnPattern (p ++ s) = None); [|rewrite E; reflexivity].
  pose proof V as (_ & _ & _ & x & z & E & [Z|[Z Nx]]).
  - rewrite E, app_assoc. apply letter_end. exact Z.
  - apply (no_find plain_ext); [exact alpha_ext|]. intros c I. rewrite pre_runes in I by auto. apply in_app_or in I as [I|I]; [left; destruct Hp as [-> | ->]; [destruct I|destruct I as [I|[]]; exact I]|].
    right. apply filter_In. split; [apply (vanity_in s); auto|]. apply negb_true_iff. apply not_true_is_false. intros X. apply existsb_exists in X as (y & Y & Ey). apply N.eqb_eq in Ey. subst y. exact (Nx _ I Y).
Qed.
Lemma end_alnum c : In c (digits10 ++ abc) -> cls_match end_cls c = false.
Proof.
  intros I. assert (B : forallb (fun c => negb (cls_match end_cls c)) (digits10 ++ abc) = true) by (vm_compute; reflexivity). rewrite forallb_forall in B. apply negb_true_iff. apply B. exact I.
Qed.
Lemma alnum_small z : In z (digits10 ++ abc) -> z < 128 /\ z <> 92 /\ z <> 47 /\ z <> 59.
Proof.
  intros I. apply in_app_or in I as [I|I]; [cbn in I; decompose [or] I; subst; try contradiction; (split; [reflexivity|]; split; [discriminate|]; split; discriminate)|].
  apply abc_iff in I. unfold ascii_letter in I. apply orb_true_iff in I. rewrite !in_rng_iff in I. lia.
Qed.
Lemma possible_end x z : clean (x ++ [z]) -> In z (digits10 ++ abc) -> ~ In 92 (runes x) -> ~ In 47 (runes x) -> extractPossibleNumber (x ++ [z]) = x ++ [z].
Proof.
  intros Cl Iz N1 N2. unfold extractPossibleNumber. destruct (find_start _ Cl) as (m & -> & ->). rewrite skipn_O.
  assert (Az : ascii [z]) by (constructor; [apply alnum_small; auto|constructor]). pose proof (runes_app_ascii x [z] Az) as R.
  assert (U : re_find unwantedEndCharPattern (x ++ [z]) = None).
  { destruct (re_find unwantedEndCharPattern (x ++ [z])) as [m2|] eqn:F; [exfalso|reflexivity]. pose proof (re_find_boundary _ _ _ F) as B. apply re_find_sound in F as (_ & _ & D & _).
    change (re_ast unwantedEndCharPattern) with (RCat (RCat (RClass end_cls) (RStar true (RClass end_cls))) REnd) in D. inv D.
    match goal with H : derives REnd _ _ _ _ _ _ |- _ => inv H end. match goal with H : derives (RCat _ _) _ _ _ _ ?q _, E : [] = _ |- _ => try rewrite <- E in H end.
    match goal with H : derives (RCat _ _) _ _ _ _ _ _ |- _ => apply derives_lang in H as (w & E & L) end.
    apply boundary_runes in B as (u & B). apply eats_runes in E. rewrite E in B. rewrite R in B. rewrite runes_nil, app_nil_r in B.
    assert (W2 : w <> [] /\ forall c, In c w -> cls_match end_cls c = true).
    { rewrite lang_cat in L. destruct L as (a & b & -> & A & Lb). rewrite lang_cls in A. destruct A as (c & -> & A). split; [discriminate|].
      assert (S : forallb (cls_match end_cls) b = true).
      { apply (star_all true (RClass end_cls) (cls_match end_cls)) in Lb; auto; [intros v V; rewrite lang_cls in V; destruct V as (y & -> & V); cbn [forallb]; rewrite V; reflexivity|intros y Y; constructor; auto]. }
      intros y [<-|Y]; auto. eapply forallb_forall in S; eauto. }
    destruct W2 as [W1 W2]. destruct w as [|y w] using rev_ind; [congruence|]. rewrite app_assoc in B. apply app_inj_tail in B as [_ <-].
    specialize (W2 z). rewrite end_alnum in W2 by auto. discriminate W2. apply in_or_app. right. left. reflexivity. }
  rewrite U. destruct (re_find secondNumberStartPattern (x ++ [z])) as [m3|] eqn:F; [exfalso|reflexivity].
  apply match_reads in F as (u & w & v & E & L & _). change (re_ast secondNumberStartPattern) with (RCat (RClass {| cneg := false; citems := map (fun x => CR x x) [92; 47] ++ []; cfold := false |})
    (RCat (RStar true (RClass (k_one 32))) (RClass (k_one 120)))) in L.
  rewrite lang_cat in L. destruct L as (a & b & -> & A & _). rewrite lang_cls in A. destruct A as (c & -> & A). unfold cls_match in A. cbn [cneg cfold citems] in A. rewrite items_singles in A.
  cbn [existsb items_match] in A. unfold items_match in A. cbn [existsb] in A. rewrite !orb_false_r in A. apply orb_true_iff in A. rewrite !N.eqb_eq in A.
  assert (I : In c (runes x ++ [z])). { rewrite <- R, E. apply in_or_app. right. left. reflexivity. }
  pose proof (alnum_small z Iz). apply in_app_or in I as [I|[I|[]]]; [destruct A; subst; auto|]. subst c. lia.
Qed.
Lemma text_end x z : clean (x ++ [z]) -> In z (digits10 ++ abc) -> ~ In 92 (runes x) -> ~ In 47 (runes x) -> ~ In 59 x -> buildNationalNumberForParsing (x ++ [z]) = Ret (x ++ [z]).
Proof.
  intros Cl Iz N1 N2 N3. assert (Sm : ~ In 59 (x ++ [z])). { intros I. pose proof (alnum_small z Iz). apply in_app_or in I as [I|[I|[]]]; [auto|]. subst z. lia. }
  rewrite build_eq. unfold text_of. change rfc3966PhoneContext with (59 :: bs "phone-context="). rewrite no_semi by auto. rewrite possible_end by auto. unfold cut_isub.
  change rfc3966IsdnSubaddress with (59 :: bs "isub="). rewrite no_semi by auto. reflexivity.
Qed.
Lemma alpha_none c : In c [92; 47; 59] -> ~ In c (43 :: letters79).
Proof.
  intros I J. assert (B : forallb (fun c => negb (existsb (N.eqb c) (43 :: letters79))) [92; 47; 59] = true) by (vm_compute; reflexivity). rewrite forallb_forall in B. specialize (B c I). apply negb_true_iff in B.
  rewrite <- not_true_iff_false in B. apply B. apply existsb_exists. exists c. split; [exact J|apply N.eqb_refl].
Qed.
Lemma vanity_text p s : p = [] /\ starts_digit s \/ p = [43] -> vanity s -> buildNationalNumberForParsing (p ++ s) = Ret (p ++ s).
Proof.
  intros Hp V. assert (Hp' : p = [] \/ p = [43]) by tauto. pose proof V as (_ & _ & _ & x & z & E & Z).
  assert (Iz : In z (digits10 ++ abc)). { apply in_or_app. destruct Z as [Z|[Z _]]; [right; apply abc_iff; exact Z|left; apply digit_in10; exact Z]. }
  assert (Ax : forall c, In c (runes (p ++ x)) -> In c (43 :: letters79)).
  { intros c I. rewrite pre_runes in I by auto. apply in_app_or in I as [I|I]; [left; destruct Hp' as [-> | ->]; [destruct I|destruct I as [I|[]]; exact I]|]. right. apply (vanity_in s); auto.
    rewrite E, runes_app_ascii; [apply in_or_app; auto|]. constructor; [apply alnum_small; auto|constructor]. }
  rewrite E, app_assoc. apply text_end; auto.
  - rewrite <- app_assoc, <- E. apply start_clean. exact Hp.
  - intros I. apply Ax in I. revert I. apply alpha_none. cbn. auto.
  - intros I. apply Ax in I. revert I. apply alpha_none. cbn. auto.
  - intros I. apply byte_rune in I; [|reflexivity]. apply Ax in I. revert I. apply alpha_none. cbn. auto.
Qed.

(** * The letters become digits *)
Definition any_nl : cls := {| cneg := true; citems := [CR 10 10]; cfold := false |}.
Definition az_cls : cls := {| cneg := false; citems := [CR 65 90; CR 97 122]; cfold := false |}.
Definition to_letter : regex := RCat (RStar false (RClass any_nl)) (RClass az_cls).
Lemma alpha_shape : re_ast validAlphaPhonePattern = RCat RBegin (RCat (RCat to_letter (RCat to_letter (RCat to_letter REmpty))) (RCat (RStar true (RClass any_nl)) REnd)).
Proof. vm_compute. reflexivity. Qed.
Lemma any_nl_ok c : cls_match any_nl c = negb (c =? 10).
Proof. unfold cls_match, any_nl. cbn [cneg cfold citems]. unfold items_match. cbn [existsb citem_match]. unfold in_rng. lia. Qed.
Lemma az_ok c : cls_match az_cls c = ascii_letter c.
Proof. unfold cls_match, az_cls, ascii_letter. cbn [cneg cfold citems]. unfold items_match. cbn [existsb citem_match]. unfold in_rng. lia. Qed.
Lemma first_letter w n : length (filter ascii_letter w) = S n -> exists u c v, w = u ++ c :: v /\ ascii_letter c = true /\ length (filter ascii_letter v) = n.
Proof.
  induction w as [|c w IH]; intros L; [discriminate|]. cbn [filter] in L. destruct (ascii_letter c) eqn:E.
  - exists [], c, w. split; [reflexivity|]. split; [auto|]. cbn [length] in L. lia.
  - destruct IH as (u & x & v & -> & A & Lv); auto. exists (c :: u), x, v. auto.
Qed.
Lemma no_nl_lang g w : ~ In 10 w -> lang (RStar g (RClass any_nl)) w.
Proof. intros H. apply star_lang. apply forallb_forall. intros c I. rewrite any_nl_ok. apply negb_true_iff, N.eqb_neq. intros ->. auto. Qed.
Lemma to_letter_lang u c : ~ In 10 u -> ascii_letter c = true -> lang to_letter (u ++ [c]).
Proof. intros U A. constructor; [apply no_nl_lang; auto|]. constructor. rewrite az_ok. exact A. Qed.
Lemma to_letter_count w : lang to_letter w -> (1 <= length (filter ascii_letter w))%nat /\ ~ In 10 w.
Proof.
  intros L. apply lang_cat in L as (u & v & -> & Lu & Lv). apply lang_cls in Lv as (c & -> & M). rewrite az_ok in M. apply star_class_lang in Lu. rewrite Forall_forall in Lu. split.
  - rewrite filter_app. cbn [filter]. rewrite M, app_length. cbn [length]. lia.
  - intros I. apply in_app_or in I as [I|[I|[]]]; [apply Lu in I; rewrite any_nl_ok in I; discriminate|subst; discriminate].
Qed.
(** The pattern for vanity numbers: three letters and no line break. *)
Lemma alpha_iff s : re_match validAlphaPhonePattern s = true <-> (3 <= length (filter ascii_letter (runes s)))%nat /\ ~ In 10 (runes s).
Proof.
  rewrite (anchored_match _ _ _ alpha_shape) by (vm_compute; reflexivity). generalize (runes s). intros w. split.
  - intros L. apply lang_cat in L as (w1 & w2 & -> & L1 & L2). apply lang_cat in L1 as (a1 & r1 & -> & A1 & L1). apply lang_cat in L1 as (a2 & r2 & -> & A2 & L1). apply lang_cat in L1 as (a3 & r3 & -> & A3 & L1).
    apply to_letter_count in A1 as [A1 B1], A2 as [A2 B2], A3 as [A3 B3]. inversion L1. subst r3. apply lang_cat in L2 as (w3 & w4 & -> & L3 & L4). inversion L4. subst w4. apply star_class_lang in L3. rewrite Forall_forall in L3.
    split; [rewrite !filter_app, !app_length; lia|]. rewrite !in_app_iff. intros I. assert (X : In 10 w3) by (cbn [In] in I; tauto). apply L3 in X. rewrite any_nl_ok in X. discriminate.
  - intros [L Nl]. destruct (length (filter ascii_letter w)) as [|[|[|n]]] eqn:E; try lia.
    destruct (first_letter w _ E) as (u1 & c1 & v1 & -> & D1 & E1). destruct (first_letter v1 _ E1) as (u2 & c2 & v2 & -> & D2 & E2). destruct (first_letter v2 _ E2) as (u3 & c3 & v3 & -> & D3 & E3).
    rewrite !in_app_iff in Nl. cbn [In] in Nl. rewrite !in_app_iff in Nl. cbn [In] in Nl. rewrite !in_app_iff in Nl. cbn [In] in Nl.
    replace (u1 ++ c1 :: u2 ++ c2 :: u3 ++ c3 :: v3) with (((u1 ++ [c1]) ++ (u2 ++ [c2]) ++ (u3 ++ [c3]) ++ []) ++ (v3 ++ [])) by (rewrite <- !app_assoc; cbn [app]; rewrite app_nil_r; reflexivity).
    constructor.
    + constructor; [apply to_letter_lang; tauto|]. constructor; [apply to_letter_lang; tauto|]. constructor; [apply to_letter_lang; tauto|constructor].
    + constructor; [apply no_nl_lang; tauto|constructor].
Qed.
Lemma seps_nokey : forallb (fun c => match key_of_rune c with None => true | _ => false end) (43 :: separators) = true. Proof. vm_compute. reflexivity. Qed.
Lemma no_nl79 : existsb (N.eqb 10) (43 :: letters79) = false. Proof. vm_compute. reflexivity. Qed.
Lemma pressed_upper c : c = 43 \/ In c letters79 -> match alphaPhoneMappings (to_upper c) with Some d => [d] | None => [] end = pressed c.
Proof.
  intros I. assert (B : forallb (fun c => match (match alphaPhoneMappings (to_upper c) with Some d => [d] | None => [] end), pressed c with [], [] => true | [a], [b] => a =? b | _, _ => false end) (43 :: letters79) = true) by (vm_compute; reflexivity).
  rewrite forallb_forall in B. specialize (B c). cbn [In] in B. match type of B with ?P -> _ => assert (X : P) by (destruct I; auto) end. specialize (B X).
  destruct (alphaPhoneMappings (to_upper c)) as [a|]; destruct (pressed c) as [|b [|]]; try discriminate; try reflexivity. apply N.eqb_eq in B. congruence.
Qed.
Lemma pressed_digits c : all_digits (pressed c) = true.
Proof.
  unfold pressed. destruct (is_digit c) eqn:D; [cbn [all_digits forallb]; rewrite D; reflexivity|]. destruct (key_of c) as [d|] eqn:K; [|reflexivity]. cbn [all_digits forallb]. rewrite andb_true_r. apply is_digit_iff.
  unfold key_of in K. destruct (find _ keypad) as [[e l]|] eqn:F; [|discriminate]. inv K. apply find_some in F as [F1 _]. simpl in F1. intuition; match goal with H : (_, _) = (_, _) |- _ => inversion H; subst end; lia.
Qed.
Lemma keys_digits s : all_digits (keys s) = true.
Proof. unfold keys. induction (runes s) as [|c w IH]; [reflexivity|]. cbn [flat_map]. unfold all_digits in *. rewrite forallb_app, IH. rewrite andb_true_r. apply pressed_digits. Qed.
Lemma keys_self d : all_digits d = true -> keys d = d.
Proof.
  intros D. unfold keys. rewrite digit_runes by auto. unfold all_digits in D. induction d as [|c d IH]; [reflexivity|]. cbn [forallb flat_map] in *. apply andb_true_iff in D as [D1 D2]. unfold pressed at 1. rewrite D1, IH by auto. reflexivity.
Qed.
Lemma vanity_normal p s : p = [] \/ p = [43] -> vanity s -> normalize (p ++ s) = keys s.
Proof.
  intros Hp V. unfold normalize. assert (M : re_match validAlphaPhonePattern (p ++ s) = true).
  { apply alpha_iff. rewrite pre_runes by auto. split.
    - destruct V as (_ & _ & L & _). rewrite filter_app, app_length. lia.
    - intros I. pose proof no_nl79 as Y. rewrite <- not_true_iff_false in Y. apply Y. apply existsb_exists. exists 10. split; [|reflexivity].
      apply in_app_or in I as [I|I]; [destruct Hp as [-> | ->]; [destruct I|destruct I as [I|[]]; discriminate]|]. right. apply (vanity_in s); auto. }
  rewrite M. unfold normalizeHelper. rewrite pre_runes by auto. unfold keys.
  assert (X : forall w, (forall c, In c w -> c = 43 \/ In c letters79) -> flat_map (fun c => match alphaPhoneMappings (to_upper c) with Some d => [d] | None => [] end) w = flat_map pressed w).
  { induction w as [|c w IH]; intros H; [reflexivity|]. cbn [flat_map]. rewrite pressed_upper by (apply H; left; auto). rewrite IH by (intros y I; apply H; right; auto). reflexivity. }
  rewrite X. 2:{ intros c I. apply in_app_or in I as [I|I]; [left; destruct Hp as [-> | ->]; [destruct I|destruct I as [I|[]]; auto]|right; apply (vanity_in s); auto]. }
  rewrite flat_map_app. replace (flat_map pressed p) with (@nil N) by (destruct Hp as [-> | ->]; reflexivity). cbn [app]. apply encode_ascii. apply digits_ascii. apply keys_digits.
Qed.
Lemma vanity_normal0 s : vanity s -> normalize s = keys s. Proof. apply (vanity_normal []); auto. Qed.
Lemma digit_normal0 d : all_digits d = true -> normalize d = d.
Proof. intros D. rewrite spaced_normal0 by (apply digits_spaced; auto). apply only_digits_self. auto. Qed.

(** * Parsing *)
Lemma vanity_plus s : vanity s -> exists g, re_find plusCharsPattern (43 :: s) = Some g /\ m_start g = 0%nat /\ m_end g = 1%nat.
Proof.
  intros V. destruct (starts_plus_find (43 :: s)) as (g & F & Z). { exists 43, s. split; [apply decode_ascii; reflexivity|auto]. }
  exists g. split; [exact F|]. split; [exact Z|]. apply re_find_sound in F as (L1 & L2 & Dv & _). rewrite Z in Dv. cbn [skipn] in Dv. apply derives_lang in Dv as (w & E & L).
  change (re_ast plusCharsPattern) with (RCat (RClass plus_cls) (RStar true (RClass plus_cls))) in L. apply lang_cat in L as (u & v & -> & Lu & Lv). apply lang_cls in Lu as (c & -> & _). cbn [app] in E.
  inversion E as [|? ? ? ? ? E1 E2]. subst. rewrite decode_ascii in E1 by reflexivity. inv E1. destruct v as [|x v].
  - assert (Hs : t = skipn (m_end g) (43 :: t)) by (inversion E2; congruence). apply (f_equal (@length N)) in Hs. rewrite skipn_length in Hs. cbn [length] in *. lia.
  - exfalso. apply star_class_lang in Lv. inversion Lv as [|? ? Hx _]. subst. apply eats_runes in E2. match type of E2 with runes ?z = _ => assert (I : In x (runes z)) by (rewrite E2; left; auto) end.
    apply plus_cls_iff in Hx. destruct V as (V & _). assert (B : forallb (fun c => negb (existsb (N.eqb c) separators) && negb (is_digit c) && negb (ascii_letter c)) [43; 65291] = true) by (vm_compute; reflexivity).
    rewrite forallb_forall in B. specialize (B x). assert (J : In x [43; 65291]) by (cbn; destruct Hx; auto). specialize (B J). rewrite !andb_true_iff, !negb_true_iff in B. destruct B as [[B1 B2] B3].
    destruct (V x I) as [H|[H|H]]; [congruence|congruence|]. rewrite <- not_true_iff_false in B1. apply B1. apply existsb_exists. exists x. split; [exact H|apply N.eqb_refl].
Qed.
Lemma vanity_noplus s : vanity s -> re_find plusCharsPattern s = None.
Proof. intros V. apply (no_find letters79); [apply alpha_plus|]. intros c. apply vanity_in. exact V. Qed.
Lemma digits_noplus d : all_digits d = true -> re_find plusCharsPattern d = None.
Proof. intros D. apply (no_find letters27); [apply seps_plus|]. intros c. apply spaced_in. apply digits_spaced. exact D. Qed.
Lemma vanity_intl p s idd : p = [] \/ p = [43] -> vanity s -> s <> [] -> keys s <> [] -> maybeStripInternationalPrefixAndNormalize (p ++ s) idd = maybeStripInternationalPrefixAndNormalize (p ++ keys s) idd.
Proof.
  intros Hp V N1 N2. pose proof (keys_digits s) as Kd. pose proof (digit_normal0 _ Kd) as Id. unfold maybeStripInternationalPrefixAndNormalize. destruct Hp as [-> | ->]; cbn [app].
  - rewrite vanity_noplus, digits_noplus by auto. rewrite vanity_normal0, Id by auto. destruct s; [congruence|]. destruct (keys _); [congruence|]. reflexivity.
  - destruct (vanity_plus s V) as ([a b cs] & -> & Ha & Hb). destruct (spaced_plus _ (digits_spaced _ Kd)) as ([a' b' cs'] & -> & Ha' & Hb'). cbn [m_start m_end] in *. subst. cbn [skipn].
    rewrite vanity_normal0, Id by auto. reflexivity.
Qed.
Lemma vanity_extract C p s dm : p = [] \/ p = [43] -> vanity s -> s <> [] -> keys s <> [] -> extract_core C (p ++ s) dm = extract_core C (p ++ keys s) dm.
Proof.
  intros Hp V N1 N2. unfold extract_core. cbv zeta. rewrite (vanity_intl p s _ Hp V N1 N2).
  destruct (p ++ s) eqn:E1; [apply app_eq_nil in E1 as [_ E1]; congruence|]. destruct (p ++ keys s) eqn:E2; [apply app_eq_nil in E2 as [_ E2]; congruence|]. reflexivity.
Qed.
Lemma vanity_code C p s dm : p = [] \/ p = [43] -> vanity s -> s <> [] -> keys s <> [] -> code_core C (p ++ s) dm = code_core C (p ++ keys s) dm.
Proof.
  intros Hp V N1 N2. pose proof (keys_digits s) as Kd. unfold code_core. rewrite vanity_extract by auto. destruct (extract_core C (p ++ keys s) dm) as [x|[]|]; auto.
  destruct Hp as [-> | ->]; cbn [app].
  - rewrite vanity_noplus, digits_noplus by auto. reflexivity.
  - destruct (vanity_plus s V) as (g & -> & _ & ->). destruct (spaced_plus _ (digits_spaced _ Kd)) as (g' & -> & _ & ->). cbn [skipn]. change s with ([] ++ s) at 1. rewrite (vanity_extract C [] s dm) by auto. reflexivity.
Qed.
Lemma vanity_region C p s r : p = [] \/ p = [43] -> vanity s -> s <> [] -> keys s <> [] -> checkRegionForParsing C (p ++ s) r = checkRegionForParsing C (p ++ keys s) r.
Proof.
  intros Hp V N1 N2. pose proof (keys_digits s) as Kd. unfold checkRegionForParsing, re_match. f_equal. f_equal.
  - destruct p; [|reflexivity]. cbn [app]. destruct s; [congruence|]. destruct (keys _); [congruence|reflexivity].
  - destruct Hp as [-> | ->]; cbn [app].
    + rewrite vanity_noplus, digits_noplus by auto. reflexivity.
    + destruct (vanity_plus s V) as (g & -> & _ & _). destruct (spaced_plus _ (digits_spaced _ Kd)) as (g' & -> & _ & _). reflexivity.
Qed.
Lemma pressed_len c : (length (pressed c) <= 1)%nat.
Proof. unfold pressed. destruct (is_digit c); [cbn; lia|]. destruct (key_of c); cbn; lia. Qed.
Lemma keys_short s : (length (keys s) <= length s)%nat.
Proof.
  pose proof (runes_short s) as R. eapply Nat.le_trans; [|exact R]. unfold keys. clear R. induction (runes s) as [|c w IH]; [cbn; lia|]. cbn [flat_map length]. rewrite app_length. pose proof (pressed_len c). unfold bytes in *. lia.
Qed.
Lemma keys_three s : vanity s -> (3 <= length (keys s))%nat.
Proof.
  intros (_ & (a & b & E & _ & L) & _). unfold keys. rewrite E, flat_map_app, app_length. assert (X : (length (filter is_digit a) <= length (flat_map pressed a))%nat); [|unfold bytes in *; lia].
  clear. induction a as [|c a IH]; [cbn; lia|]. cbn [filter flat_map]. rewrite app_length. unfold pressed at 1. destruct (is_digit c); cbn [length]; [|]; unfold bytes in *; lia.
Qed.
Theorem vanity_core C p s r : p = [] /\ starts_digit s \/ p = [43] -> vanity s -> (length (p ++ s) <= 250)%nat -> parse_core C (p ++ s) r true = parse_core C (p ++ keys s) r true.
Proof.
  intros Hp V L. assert (Hp' : p = [] \/ p = [43]) by tauto. pose proof (keys_digits s) as Kd. pose proof (digits_spaced _ Kd) as Sd. pose proof (keys_three s V) as L3. pose proof (keys_short s) as Lo.
  assert (N1 : s <> []) by (intros E; rewrite E in L3; cbn in L3; lia). assert (N2 : keys s <> []) by (intros E; rewrite E in L3; cbn [length] in L3; lia).
  pose proof (vanity_text p s Hp V) as B1.
  assert (B2 : buildNationalNumberForParsing (p ++ keys s) = Ret (p ++ keys s)).
  { apply text_clean; auto.
    - apply start_clean. destruct Hp as [[-> _]| ->]; [left; split; [reflexivity|]|right; reflexivity]. destruct (keys s) as [|c t]; [congruence|]. exists c, t. split; [reflexivity|]. apply (all_digits_In (c :: t)); [auto|left; auto].
    - destruct Hp' as [-> | ->]; [intros []|change (runes [43]) with [43]; intros [E|[]]; discriminate].
    - destruct Hp' as [-> | ->]; [intros []|change (runes [43]) with [43]; intros [E|[]]; discriminate].
    - destruct Hp' as [-> | ->]; [intros []|intros [E|[]]; discriminate]. }
  pose proof (vanity_viable p s Hp' V) as V1.
  assert (V2 : isViablePhoneNumber (p ++ keys s) = true).
  { apply spaced_viable; auto. change (filter dig (runes (keys s))) with (only_digits (keys s)). rewrite only_digits_self by auto. exact L3. }
  unfold parse_core. rewrite B1, B2. replace (is_empty (p ++ s)) with false by (symmetry; apply is_empty_false; intros E; apply app_eq_nil in E as [_ E]; congruence).
  replace (is_empty (p ++ keys s)) with false by (symmetry; apply is_empty_false; intros E; apply app_eq_nil in E as [_ E]; congruence).
  replace (Nat.ltb maxInputStringLength (len (p ++ s))) with false by (symmetry; apply Nat.ltb_ge; exact L).
  replace (Nat.ltb maxInputStringLength (len (p ++ keys s))) with false by (symmetry; apply Nat.ltb_ge; unfold len, maxInputStringLength; rewrite app_length in *; lia).
  cbn [bind]. rewrite V1, V2. cbn [negb]. rewrite vanity_region by auto. rewrite vanity_ext by auto. rewrite spaced_ext by auto. rewrite vanity_code by auto. rewrite vanity_normal by auto. rewrite spaced_normal by auto. rewrite (only_digits_self (keys s)) by auto. reflexivity.
Qed.
