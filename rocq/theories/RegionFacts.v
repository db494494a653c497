(** Which regions of a shared calling code a number belongs to: deciding, for all numbers at once, that the metadata of two regions of one calling
    code agree on the numbers both claim. *)
From Coq Require Import Lia Permutation.
From Verif Require Import Base BaseFacts Utf8 Regex RegexSpec RegexFacts Consts Types Validate NumberSpec NumberFacts MetaSpec ValidateSpec ValidateFacts
  Shipped MetaFacts TextFacts LangFacts DerivFacts RoundTripFacts RuleSpec RuleFacts ShowFacts RuleMore QuerySpec QueryFacts.
Local Opaque compile re_find re_replace_all.

(** * Deterministic automata over the ten digits *)
(** A row says whether the state accepts, whether nothing can be accepted from it any more, and where each digit leads. *)
Definition auto := list (bool * bool * list nat).
Definition row0 : bool * bool * list nat := (false, false, []).
Definition anul (A : auto) (i : nat) : bool := fst (fst (nth i A row0)).
Definition aemp (A : auto) (i : nat) : bool := snd (fst (nth i A row0)).
Definition astep (c : N) (A : auto) (i : nat) : nat := nth (N.to_nat (c - 48)) (snd (nth i A row0)) 0%nat.
Definition arun (A : auto) (w : list N) (i : nat) : nat := fold_left (fun i c => astep c A i) w i.
Definition rset_eqb : rset -> rset -> bool := list_eqb regex_eqb.
Fixpoint index (x : rset) (l : list rset) : option nat :=
  match l with [] => None | y :: l => if rset_eqb x y then Some 0%nat else match index x l with Some i => Some (S i) | None => None end end.
Fixpoint explore (fuel : nat) (todo : list rset) (seen : list (rset * list rset)) : list (rset * list rset) :=
  match fuel, todo with
  | S f, x :: todo => if existsb (fun e => rset_eqb x (fst e)) seen then explore f todo seen
                      else let q := map (fun c => step c x) digits10 in explore f (q ++ todo) (seen ++ [(x, q)])
  | _, _ => seen
  end.
Fixpoint all_some {A} (l : list (option A)) : option (list A) :=
  match l with [] => Some [] | Some x :: l => match all_some l with Some t => Some (x :: t) | None => None end | None :: _ => None end.
Definition row (ss : list rset) (e : rset * list rset) : option (bool * bool * list nat) :=
  match all_some (map (fun q => index q ss) (snd e)) with Some l => Some (nuls (fst e), match fst e with [] => true | _ => false end, l) | None => None end.
Definition mk_auto (r : regex) : option auto :=
  let es := explore 5000 [[r]] [] in let ss := map fst es in
  match ss with x :: _ => if rset_eqb x [r] then all_some (map (row ss) es) else None | [] => None end.
Lemma all_some_nth {A} (l : list (option A)) : forall t, all_some l = Some t -> length t = length l /\ forall i x, nth_error t i = Some x -> nth_error l i = Some (Some x).
Proof.
  induction l as [|[a|] l IH]; intros t H; cbn [all_some] in H; try discriminate.
  - injection H as <-. split; [reflexivity|]. intros [|i] x Q; discriminate Q.
  - destruct (all_some l) as [t'|]; [|discriminate]. injection H as <-. destruct (IH t' eq_refl) as (L & P). split; [cbn; lia|]. intros [|i] x Q; cbn in *; [congruence|apply P; exact Q].
Qed.
Lemma index_nth x l : forall i, index x l = Some i -> nth_error l i = Some x.
Proof.
  induction l as [|y l IH]; intros i H; cbn [index] in H; [discriminate|]. destruct (rset_eqb x y) eqn:E.
  - injection H as <-. apply list_eqb_ok in E; [|exact regex_eqb_ok]. cbn. congruence.
  - destruct (index x l) as [j|]; [|discriminate]. injection H as <-. cbn. apply IH. reflexivity.
Qed.
Definition good (es : list (rset * list rset)) : Prop := forall x q, In (x, q) es -> q = map (fun c => step c x) digits10.
Lemma explore_good fuel : forall todo seen, good seen -> good (explore fuel todo seen).
Proof.
  induction fuel as [|f IH]; intros [|x todo] seen G; cbn [explore]; auto. destruct (existsb _ seen); [apply IH; exact G|]. apply IH. intros y q I. apply in_app_or in I as [I|[I|[]]]; [apply G; exact I|]. injection I as <- <-. reflexivity.
Qed.
Definition follows (ss : list rset) (A : auto) : Prop :=
  forall i x, nth_error ss i = Some x -> anul A i = nuls x /\ aemp A i = (match x with [] => true | _ => false end) /\ forall c, is_digit c = true -> nth_error ss (astep c A i) = Some (step c x).
Lemma mk_auto_ok r A : mk_auto r = Some A -> exists ss, follows ss A /\ nth_error ss 0 = Some [r].
Proof.
  unfold mk_auto. set (es := explore 5000 [[r]] []). assert (G : good es) by (apply explore_good; intros x q []). clearbody es.
  destruct (map fst es) as [|x0 ss0] eqn:E0; [discriminate|]. rewrite <- E0. destruct (rset_eqb x0 [r]) eqn:E1; [|discriminate]. apply list_eqb_ok in E1; [|exact regex_eqb_ok]. intros H.
  exists (map fst es). split; [|rewrite E0, E1; reflexivity]. clear E0 E1. destruct (all_some_nth _ _ H) as (L & P). intros i x Q.
  rewrite map_length in L. assert (Li : (i < length A)%nat) by (rewrite L, <- (map_length fst); apply nth_error_Some; congruence).
  destruct (nth_error A i) as [y|] eqn:Y; [|apply nth_error_None in Y; lia]. pose proof (P _ _ Y) as R. rewrite nth_error_map in R. destruct (nth_error es i) as [e|] eqn:Ee; [|discriminate]. cbn [option_map] in R. injection R as R.
  rewrite nth_error_map, Ee in Q. cbn [option_map] in Q. injection Q as Q. destruct e as [x' q]. cbn [fst] in Q. subst x'. assert (Gq : q = map (fun c => step c x) digits10) by (apply G; eapply nth_error_In; exact Ee).
  unfold row in R. cbn [fst snd] in R. destruct (all_some (map (fun q => index q (map fst es)) q)) as [l|] eqn:El; [|discriminate]. injection R as R. destruct (all_some_nth _ _ El) as (Ll & Pl).
  unfold anul, aemp, astep. rewrite (nth_error_nth _ _ row0 Y), <- R. cbn [fst snd]. split; [reflexivity|]. split; [reflexivity|]. intros c D. rewrite map_length, Gq, map_length in Ll.
  apply is_digit_iff in D. set (j := N.to_nat (c - 48)). assert (Lj : (j < length digits10)%nat) by (cbn; subst j; lia).
  destruct (nth_error l j) as [z|] eqn:Z; [|apply nth_error_None in Z; lia]. rewrite (nth_error_nth _ _ 0%nat Z). apply Pl in Z. rewrite Gq, map_map, nth_error_map in Z.
  destruct (nth_error digits10 j) as [d|] eqn:Ed; [|discriminate]. cbn [option_map] in Z. injection Z as Z. apply index_nth in Z. rewrite Z. f_equal.
  assert (d = c); [|congruence]. assert (Cc : c = 48 \/ c = 49 \/ c = 50 \/ c = 51 \/ c = 52 \/ c = 53 \/ c = 54 \/ c = 55 \/ c = 56 \/ c = 57) by lia.
  unfold j in Ed. clear - Ed Cc. decompose [or] Cc; subst c; vm_compute in Ed; congruence.
Qed.
Lemma arun_follows ss A w : follows ss A -> all_digits w = true -> forall i x, nth_error ss i = Some x -> nth_error ss (arun A w i) = Some (run w x).
Proof.
  intros F. unfold arun. induction w as [|c w IH]; intros D i x E; cbn [fold_left run]; [exact E|]. unfold all_digits in D. cbn [forallb] in D. apply andb_true_iff in D as [D1 D2].
  apply IH; [exact D2|]. apply (F i x E). exact D1.
Qed.
(** The automaton of an expression answers for every text of digits. *)
Definition auto_of (r : regex) (A : auto) : Prop := forall w, all_digits w = true -> anul A (arun A w 0) = acc [r] w /\ (aemp A (arun A w 0) = true -> run w [r] = []).
Lemma mk_auto_of r A : mk_auto r = Some A -> auto_of r A.
Proof.
  intros H w D. apply mk_auto_ok in H as (ss & F & Z). pose proof (arun_follows ss A w F D 0%nat _ Z) as E. destruct (F _ _ E) as (N & M & _). split; [exact N|]. rewrite M. destruct (run w [r]); [reflexivity|discriminate].
Qed.

(** * All states of several automata after each number of digits *)
Definition pstep (As : list auto) (c : N) (x : list nat) : list nat := map (fun p => astep c (fst p) (snd p)) (combine As x).
Definition at_word (As : list auto) (w : list N) : list nat := map (fun A => arun A w 0) As.
Definition pdead (As : list auto) (k : nat) (x : list nat) : bool := existsb (fun p => aemp (fst p) (snd p)) (firstn k (combine As x)).
Definition pflags (As : list auto) (x : list nat) : list bool := map (fun p => anul (fst p) (snd p)) (combine As x).
Fixpoint nats_eqb (a b : list nat) : bool := match a, b with [], [] => true | x :: a, y :: b => if (x =? y)%nat then nats_eqb a b else false | _, _ => false end.
Fixpoint pdedup (l : list (list nat)) : list (list nat) := match l with [] => [] | x :: t => let t := pdedup t in if existsb (nats_eqb x) t then t else x :: t end.
Definition pnext (As : list auto) (k : nat) (l : list (list nat)) : list (list nat) := pdedup (filter (fun x => negb (pdead As k x)) (flat_map (fun x => map (fun c => pstep As c x) digits10) l)).
Fixpoint sweep (As : list auto) (chk : nat -> list bool -> bool) (k fuel depth : nat) (l : list (list nat)) : bool :=
  if forallb (fun x => chk depth (pflags As x)) l then match fuel with O => true | S f => sweep As chk k f (S depth) (pnext As k l) end else false.
Lemma nats_eqb_ok a : forall b, nats_eqb a b = true -> a = b.
Proof. induction a as [|x a IH]; intros [|y b]; cbn [nats_eqb]; try discriminate; [auto|]. destruct (Nat.eqb_spec x y) as [->|]; [|discriminate]. intros H. f_equal. auto. Qed.
Lemma pdedup_in x l : In x l -> In x (pdedup l).
Proof.
  induction l as [|y l IH]; [auto|]. cbn [pdedup]. intros [->|I]; destruct (existsb _ (pdedup l)) eqn:E.
  - apply existsb_exists in E as (z & I & Q). apply nats_eqb_ok in Q. subst z. exact I.
  - left. reflexivity.
  - auto.
  - right. auto.
Qed.
Lemma combine_map {A B} (f : A -> B) l : combine l (map f l) = map (fun a => (a, f a)) l.
Proof. induction l as [|a l IH]; [reflexivity|]. cbn [map combine]. rewrite IH. reflexivity. Qed.
Lemma pstep_word As w c : pstep As c (at_word As w) = at_word As (w ++ [c]).
Proof. unfold pstep, at_word. rewrite combine_map, map_map. apply map_ext. intros A. cbn [fst snd]. unfold arun. rewrite fold_left_app. reflexivity. Qed.
Lemma pflags_word As w : pflags As (at_word As w) = map (fun A => anul A (arun A w 0)) As.
Proof. unfold pflags, at_word. rewrite combine_map, map_map. reflexivity. Qed.
Lemma sweep_run As chk k fuel : forall depth l, sweep As chk k fuel depth l = true -> forall u w, In (at_word As u) l -> all_digits w = true -> (length w <= fuel)%nat ->
  (forall w1 w2, w = w1 ++ w2 -> pdead As k (at_word As (u ++ w1)) = false) -> chk (depth + length w)%nat (pflags As (at_word As (u ++ w))) = true.
Proof.
  induction fuel as [|fuel IH]; intros depth l H u w I D L N; cbn [sweep] in H; destruct (forallb _ l) eqn:F; try discriminate; rewrite forallb_forall in F.
  - destruct w; [|cbn in L; lia]. rewrite Nat.add_0_r, app_nil_r. apply F. exact I.
  - destruct w as [|c w]; [rewrite Nat.add_0_r, app_nil_r; apply F; exact I|].
    unfold all_digits in D. cbn [forallb] in D. apply andb_true_iff in D as [D1 D2]. cbn [length] in *. rewrite <- Nat.add_succ_comm. replace (u ++ c :: w) with ((u ++ [c]) ++ w) by (rewrite <- app_assoc; reflexivity).
    apply (IH _ _ H); [|exact D2|lia|].
    + unfold pnext. apply pdedup_in. apply filter_In. split.
      * apply in_flat_map. exists (at_word As u). split; [exact I|]. apply in_map_iff. exists c. split; [apply pstep_word|apply digit_in10; exact D1].
      * rewrite (N [c] w eq_refl). reflexivity.
    + intros w1 w2 ->. rewrite <- app_assoc. apply (N (c :: w1) w2). reflexivity.
Qed.

(** * Descriptors as languages *)
Definition plain (p : bytes) : bool := framed_b p && anchorless (ast p) && compiles_b p.
Definition plain_left (p : bytes) : bool := framed_left_b p && anchorless (ast p) && compiles_b p.
Definition comp (d : option desc) : regex := ast (get_d_pattern d).
Definition acc_b (d : option desc) (k : nat) (matched : bool) : bool :=
  match d with Some x => if (match d_len x with [] => true | l => memz (Z.of_nat k) l end) then matched else false | None => false end.
Lemma comp_full d s : plain (get_d_pattern d) = true -> all_digits s = true -> full_match (get_d_pattern d) s <-> acc [comp d] s = true.
Proof.
  unfold plain. rewrite !andb_true_iff. intros ((F & A) & K) D. rewrite (full_match_all _ s (framed_b_ok _ F)), (matches_all_lang _ s A K D), acc_one. reflexivity.
Qed.
Lemma acc_b_ok d s : plain (get_d_pattern d) = true -> all_digits s = true -> accepts d s <-> acc_b d (length s) (acc [comp d] s) = true.
Proof.
  intros P D. pose proof (comp_full d s P D) as F. unfold accepts, acc_b. destruct d as [x|]; [|split; [intros (x & Q & _); discriminate|discriminate]]. split.
  - intros (y & Q & L & M). injection Q as <-. apply F in M. destruct L as [L|L].
    + rewrite L. exact M.
    + destruct (d_len x) as [|a l]; [destruct L|]. apply memz_iff in L. rewrite L. exact M.
  - intros H. exists x. split; [reflexivity|]. destruct (d_len x) as [|a l].
    + split; [left; reflexivity|apply F; exact H].
    + destruct (memz (Z.of_nat (length s)) (a :: l)) eqn:E; [|discriminate]. split; [right; apply memz_iff; exact E|apply F; exact H].
Qed.
Lemma leads_ok p s : plain_left p = true -> all_digits s = true -> starts_with p s <-> acc [front (ast p)] s = true.
Proof.
  unfold plain_left. rewrite !andb_true_iff. intros ((F & A) & K) D. rewrite (starts_front _ s (framed_left_b_ok _ F)), (matches_front_lang _ s A K D), <- acc_one. reflexivity.
Qed.

(** * Types as a list of answers, in the order of precedence *)
Definition kinds (m : meta) : list (option desc) :=
  [md_general m; md_premium m; md_tollfree m; md_shared m; md_voip m; md_personal m; md_pager m; md_uan m; md_voicemail m; md_fixed m; md_mobile m].
Fixpoint answers (k : nat) (ds : list (option desc)) (x : list bool) : list bool :=
  match ds, x with d :: ds, y :: x => acc_b d k y :: answers k ds x | _, _ => [] end.
Definition types_b (m : meta) (b : list bool) : list bool :=
  match b with
  | [g; pr; tf; sc; vo; pn; pg; ua; vm; fx; mb] =>
      let same := match md_same m with Some true => true | _ => false end in
      map (andb g) [pr; tf; sc; vo; pn; pg; ua; vm; fx && (same || mb); fx; negb same && mb]
  | _ => []
  end.
Definition typing (m : meta) (k : nat) (x : list bool) : list bool := types_b m (answers k (kinds m) x).
Definition meta_plain (m : meta) : bool :=
  forallb (fun d => plain (get_d_pattern d)) (kinds m) && (if is_empty (get_bytes (md_leading m)) then true else plain_left (get_bytes (md_leading m))).
Definition types_of (m : meta) (s : bytes) : list bool := typing m (length s) (map (fun d => acc [comp d] s) (kinds m)).
Lemma types_of_ok m s : meta_plain m = true -> all_digits s = true -> Forall2 (fun t b => has_type m s t <-> b = true) precedence (types_of m s).
Proof.
  unfold meta_plain. rewrite andb_true_iff, forallb_forall. intros (P & _) D.
  assert (A : forall d, In d (kinds m) -> accepts d s <-> acc_b d (length s) (acc [comp d] s) = true) by (intros d I; apply acc_b_ok; [apply P; exact I|exact D]).
  unfold types_of, typing. unfold kinds in *. cbn [map answers types_b precedence].
  pose proof (A (md_general m) ltac:(cbn; tauto)) as A0. pose proof (A (md_premium m) ltac:(cbn; tauto)) as A1. pose proof (A (md_tollfree m) ltac:(cbn; tauto)) as A2.
  pose proof (A (md_shared m) ltac:(cbn; tauto)) as A3. pose proof (A (md_voip m) ltac:(cbn; tauto)) as A4. pose proof (A (md_personal m) ltac:(cbn; tauto)) as A5.
  pose proof (A (md_pager m) ltac:(cbn; tauto)) as A6. pose proof (A (md_uan m) ltac:(cbn; tauto)) as A7. pose proof (A (md_voicemail m) ltac:(cbn; tauto)) as A8.
  pose proof (A (md_fixed m) ltac:(cbn; tauto)) as A9. pose proof (A (md_mobile m) ltac:(cbn; tauto)) as A10. clear A P.
  assert (Sm : (md_same m = Some true <-> (match md_same m with Some true => true | _ => false end) = true)) by (destruct (md_same m) as [[]|]; split; congruence).
  set (same := match md_same m with Some true => true | _ => false end) in *. clearbody same.
  repeat (constructor; [unfold has_type; cbn [desc_for]; rewrite !andb_true_iff, ?orb_true_iff, ?negb_true_iff, <- ?not_true_iff_false; tauto|]). constructor.
Qed.
Lemma types_same m m' s : meta_plain m = true -> meta_plain m' = true -> all_digits s = true -> types_of m s = types_of m' s -> forall t, has_type m s t <-> has_type m' s t.
Proof.
  intros P P' D E t. pose proof (types_of_ok m s P D) as F. pose proof (types_of_ok m' s P' D) as F'. rewrite E in F.
  assert (G : forall l b, Forall2 (fun t b => has_type m s t <-> b = true) l b -> Forall2 (fun t b => has_type m' s t <-> b = true) l b -> In t l -> (has_type m s t <-> has_type m' s t)).
  { induction 1 as [|x y l b H F0 IH]; intros F1 I; [destruct I|]. inversion F1; subst. destruct I as [<-|I]; [tauto|auto]. }
  destruct t; try (apply (G _ _ F F'); cbn; tauto). unfold has_type. tauto.
Qed.
Lemma types_some m s : meta_plain m = true -> all_digits s = true -> (exists t, has_type m s t) <-> existsb (fun b => b) (types_of m s) = true.
Proof.
  intros P D. pose proof (types_of_ok m s P D) as F. rewrite existsb_exists. split.
  - intros (t & H). assert (I : In t precedence) by (destruct t; cbn; try tauto; destruct H as (_ & [])).
    clear P D. induction F as [|x y l b Hy F IH]; [destruct I|]. destruct I as [<-|I]; [exists y; split; [left; reflexivity|apply Hy; exact H]|]. destruct (IH I) as (z & Iz & Ez). exists z. split; [right; exact Iz|exact Ez].
  - intros (y & I & ->). clear P D. induction F as [|x y l b Hy F IH]; [destruct I|]. destruct I as [->|I]; [exists x; apply Hy; reflexivity|auto].
Qed.
(** Fixed-line and mobile types come last. *)
Definition line_b (l : list bool) : bool := existsb (fun b => b) (skipn 8 l).
Definition is_line (t : ptype) : Prop := t = FIXED_LINE \/ t = MOBILE \/ t = FIXED_LINE_OR_MOBILE.
Lemma line_ok m s t : meta_plain m = true -> all_digits s = true -> is_line t -> has_type m s t -> line_b (types_of m s) = true.
Proof.
  intros P D L H. pose proof (types_of_ok m s P D) as F. unfold precedence in F. generalize dependent (types_of m s). intros ts F. do 8 (inversion F as [|? ? ? ? _ F1]; subst; clear F; rename F1 into F). unfold line_b. cbn [skipn].
  apply existsb_exists. assert (I : In t [FIXED_LINE_OR_MOBILE; FIXED_LINE; MOBILE]) by (destruct L as [->|[->| ->]]; cbn; tauto).
  clear P D L. induction F as [|x y' l0 b Hy F IH]; [destruct I|]. destruct I as [<-|I]; [exists y'; split; [left; reflexivity|apply Hy; exact H]|]. destruct (IH I) as (z & Iz & Ez). exists z. split; [right; exact Iz|exact Ez].
Qed.

(** * Two regions of one calling code *)
Definition lead (m : meta) : regex := front (ast (get_bytes (md_leading m))).
Definition driver (m : meta) : regex := if is_empty (get_bytes (md_leading m)) then comp (md_general m) else lead m.
(** Does the region claim a number with these answers? *)
Definition claims_b (m : meta) (ts : list bool) (led : bool) : bool := if is_empty (get_bytes (md_leading m)) then existsb (fun b => b) ts else led.
Lemma claims_b_ok C r m s : getMetadataForRegion C r = Some m -> meta_plain m = true -> all_digits s = true -> claims C s r <-> claims_b m (types_of m s) (acc [driver m] s) = true.
Proof.
  intros E P D. pose proof P as Q. unfold meta_plain in Q. apply andb_true_iff in Q as (_ & Q). unfold claims, claims_b, driver. destruct (is_empty (get_bytes (md_leading m))) eqn:Em.
  - apply is_empty_iff in Em. rewrite <- (types_some m s P D). split.
    + intros (m' & E' & [(N & _)|(_ & H)]); rewrite E in E'; injection E' as <-; [congruence|exact H].
    + intros H. exists m. auto.
  - apply is_empty_false in Em. unfold lead. rewrite <- (leads_ok _ s Q D). split.
    + intros (m' & E' & [(_ & H)|(N & _)]); rewrite E in E'; injection E' as <-; [exact H|congruence].
    + intros H. exists m. auto.
Qed.
Definition blist_eqb : list bool -> list bool -> bool := list_eqb Bool.eqb.
Definition pair_chk (exc : bool) (m m' : meta) (k : nat) (v : list bool) : bool :=
  match v with
  | y :: x => let a := typing m k (firstn 11 x) in
      if existsb (fun b => b) a then let b := typing m' k (skipn 11 x) in
        if claims_b m' b y then if blist_eqb a b then if exc then true else negb (line_b a) else false else true
      else true
  | _ => false
  end.
Definition longest := 17%nat.
Definition short_b (m : meta) : bool := match md_general m with Some d => negb (match d_len d with [] => true | _ => false end) && forallb (fun l => (l <=? 17)%Z) (d_len d) | None => false end.
(** The automata of a region: of what claims a number, and of its types, the general description first. *)
Definition autos (m : meta) : option (auto * list auto) :=
  match mk_auto (driver m), all_some (map (fun d => mk_auto (comp d)) (kinds m)) with Some A, Some l => Some (A, l) | _, _ => None end.
Definition autos_ok (m : meta) (a : auto * list auto) : Prop := auto_of (driver m) (fst a) /\ Forall2 (fun d A => auto_of (comp d) A) (kinds m) (snd a).
Lemma all_some_map {X Y} (f : X -> option Y) ds : forall l, all_some (map f ds) = Some l -> Forall2 (fun d y => f d = Some y) ds l.
Proof.
  induction ds as [|d ds IH]; intros l El; cbn [map all_some] in El; [injection El as <-; constructor|]. destruct (f d) as [y|] eqn:Ey; [|discriminate].
  destruct (all_some (map f ds)) as [t|] eqn:Et; [|discriminate]. injection El as <-. constructor; [exact Ey|apply IH; reflexivity].
Qed.
Lemma autos_made m a : autos m = Some a -> autos_ok m a.
Proof.
  unfold autos. destruct (mk_auto (driver m)) as [A|] eqn:E; [|discriminate]. destruct (all_some (map (fun d => mk_auto (comp d)) (kinds m))) as [l|] eqn:El; [|discriminate]. intros H. injection H as <-. split; cbn [fst snd]; [apply mk_auto_of; exact E|].
  apply all_some_map in El. generalize dependent (kinds m). intros ds F. induction F as [|d y ds l H F IH]; constructor; [apply mk_auto_of; exact H|exact IH].
Qed.
Definition pair_ok (exc : bool) (m m' : meta) (a a' : auto * list auto) : bool :=
  let As := fst a' :: snd a ++ snd a' in sweep As (pair_chk exc m m') 2 longest 0 [at_word As []].
(** A number of region m is claimed: by m itself, or by the main region m'. *)
Definition own_chk (m m' : meta) (k : nat) (x : list bool) : bool :=
  let a := typing m k (firstn 11 x) in
  if existsb (fun b => b) a then if claims_b m a (nth 22 x false) then true else claims_b m' (typing m' k (firstn 11 (skipn 11 x))) (nth 23 x false) else true.
Definition own_ok (m m' : meta) (a a' : auto * list auto) : bool :=
  if is_empty (get_bytes (md_leading m)) then true else let As := (snd a ++ snd a') ++ [fst a; fst a'] in sweep As (own_chk m m') 1 longest 0 [at_word As []].
Lemma autos_flags m a w : autos_ok m a -> all_digits w = true -> map (fun A => anul A (arun A w 0)) (snd a) = map (fun d => acc [comp d] w) (kinds m).
Proof. intros (_ & F) D. induction F as [|d A ds As H F IH]; [reflexivity|]. cbn [map]. rewrite IH. f_equal. apply H. exact D. Qed.
Lemma short_len m s t : short_b m = true -> has_type m s t -> (length s <= longest)%nat.
Proof.
  unfold short_b, longest. intros B (G & _). destruct G as (d & Ed & L & _). rewrite Ed in B. apply andb_true_iff in B as (N & B). destruct L as [L|L]; [rewrite L in N; discriminate|].
  rewrite forallb_forall in B. specialize (B _ L). apply Z.leb_le in B. lia.
Qed.
Lemma general_acc m s t : meta_plain m = true -> all_digits s = true -> has_type m s t -> acc [comp (md_general m)] s = true.
Proof.
  intros P D (G & _). unfold meta_plain in P. apply andb_true_iff in P as (P & _). rewrite forallb_forall in P. specialize (P (md_general m) ltac:(cbn; tauto)).
  destruct G as (d & Ed & _ & F). apply (comp_full _ s P D) in F. exact F.
Qed.
Lemma claims_acc C r m s : getMetadataForRegion C r = Some m -> meta_plain m = true -> all_digits s = true -> claims C s r -> acc [driver m] s = true.
Proof.
  intros E P D H. pose proof H as H0. apply (claims_b_ok C r m s E P D) in H0. unfold claims_b, driver in *. destruct (is_empty (get_bytes (md_leading m))) eqn:Em; [|exact H0].
  apply (types_some m s P D) in H0 as (t & T). eapply general_acc; eauto.
Qed.
Lemma blist_ok a b : blist_eqb a b = true -> a = b.
Proof. apply list_eqb_ok. intros x y H. apply Bool.eqb_prop. exact H. Qed.
Lemma alive r A w1 w2 : auto_of r A -> all_digits (w1 ++ w2) = true -> acc [r] (w1 ++ w2) = true -> aemp A (arun A w1 0) = false.
Proof.
  intros H D K. apply not_true_iff_false. intros E. rewrite all_digits_app in D. apply andb_true_iff in D as (D1 & D2). destruct (H w1 D1) as (_ & Q). apply acc_front in K. auto.
Qed.
Lemma flags_split m m' a a' w : autos_ok m a -> autos_ok m' a' -> all_digits w = true ->
  map (fun A => anul A (arun A w 0)) (snd a ++ snd a') = map (fun d => acc [comp d] w) (kinds m) ++ map (fun d => acc [comp d] w) (kinds m').
Proof. intros H H' D. rewrite map_app, (autos_flags m a w H D), (autos_flags m' a' w H' D). reflexivity. Qed.
Lemma pair_run C exc r' m m' a a' s t : pair_ok exc m m' a a' = true -> autos_ok m a -> autos_ok m' a' -> meta_plain m = true -> meta_plain m' = true -> short_b m = true -> all_digits s = true ->
  getMetadataForRegion C r' = Some m' -> has_type m s t -> claims C s r' -> (forall u, has_type m' s u <-> has_type m s u) /\ (is_line t -> exc = true).
Proof.
  intros O Ha Ha' P P' B D E H K. pose proof (short_len m s t B H) as L. pose proof (general_acc m s t P D H) as Kg. pose proof (claims_acc C r' m' s E P' D K) as Kd. unfold pair_ok in O.
  assert (X := sweep_run _ _ _ _ _ _ O [] s (or_introl eq_refl) D L). rewrite Nat.add_0_l in X. cbn [app] in X.
  assert (X' : pair_chk exc m m' (length s) (pflags (fst a' :: snd a ++ snd a') (at_word (fst a' :: snd a ++ snd a') s)) = true).
  { apply X. intros w1 w2 ->. destruct Ha as (_ & F). destruct Ha' as (Hd & _). unfold kinds in F. inversion F as [|d0 A0 ds0 As0 HA0 F0 E1 E2]; subst. rewrite <- E2 in *. clear F0 F X O E2.
    unfold pdead, at_word. cbn [map combine firstn existsb app fst snd]. rewrite (alive _ _ w1 w2 Hd D Kd), (alive _ _ w1 w2 HA0 D Kg). reflexivity. }
  clear X O. rename X' into X. rewrite pflags_word in X. cbn [map] in X. rewrite (flags_split m m' a a' s Ha Ha' D) in X. unfold pair_chk in X. rewrite firstn_app, skipn_app in X.
  change (firstn 11 (map (fun d => acc [comp d] s) (kinds m))) with (map (fun d => acc [comp d] s) (kinds m)) in X. change (skipn 11 (map (fun d => acc [comp d] s) (kinds m))) with (@nil bool) in X.
  change (11 - length (map (fun d => acc [comp d] s) (kinds m)))%nat with 0%nat in X. cbn [firstn skipn app] in X. rewrite app_nil_r in X. fold (types_of m s) in X. fold (types_of m' s) in X. cbv zeta in X.
  rewrite (proj1 (types_some m s P D)) in X by eauto. rewrite (proj1 (proj1 Ha' s D)) in X. rewrite (proj1 (claims_b_ok C r' m' s E P' D) K) in X.
  destruct (blist_eqb (types_of m s) (types_of m' s)) eqn:Q; [|discriminate]. apply blist_ok in Q. split.
  - apply types_same; auto.
  - intros Lt. destruct exc; [reflexivity|]. rewrite (line_ok m s t P D Lt H) in X. discriminate.
Qed.
Lemma own_run C r r' m m' a a' s t : own_ok m m' a a' = true -> autos_ok m a -> autos_ok m' a' -> meta_plain m = true -> meta_plain m' = true -> short_b m = true -> all_digits s = true ->
  getMetadataForRegion C r = Some m -> getMetadataForRegion C r' = Some m' -> has_type m s t -> claims C s r \/ claims C s r'.
Proof.
  intros O Ha Ha' P P' B D E E' H. rewrite (claims_b_ok C r m s E P D), (claims_b_ok C r' m' s E' P' D). unfold own_ok in O. destruct (is_empty (get_bytes (md_leading m))) eqn:Em.
  - left. unfold claims_b. rewrite Em. apply (types_some m s P D). eauto.
  - pose proof (short_len m s t B H) as L. pose proof (general_acc m s t P D H) as Kg. assert (X := sweep_run _ _ _ _ _ _ O [] s (or_introl eq_refl) D L). rewrite Nat.add_0_l in X. cbn [app] in X. clear O.
    assert (X' : own_chk m m' (length s) (pflags ((snd a ++ snd a') ++ [fst a; fst a']) (at_word ((snd a ++ snd a') ++ [fst a; fst a']) s)) = true).
    { apply X. intros w1 w2 ->. destruct Ha as (_ & F). unfold kinds in F. inversion F as [|d0 A0 ds0 As0 HA0 F0 E1 E2]; subst. rewrite <- E2 in *. clear F0 F X E2.
      unfold pdead, at_word. cbn [map combine firstn existsb app fst snd]. rewrite (alive _ _ w1 w2 HA0 D Kg). reflexivity. }
    clear X. rename X' into X. rewrite pflags_word in X. rewrite map_app in X. rewrite (flags_split m m' a a' s Ha Ha' D) in X. unfold own_chk in X. rewrite <- app_assoc in X. cbn [map] in X. rewrite (proj1 (proj1 Ha s D)), (proj1 (proj1 Ha' s D)) in X.
    set (u := map (fun d => acc [comp d] s) (kinds m)) in *. set (u' := map (fun d => acc [comp d] s) (kinds m')) in *. assert (Lu : length u = 11%nat) by reflexivity. assert (Lu' : length u' = 11%nat) by reflexivity.
    assert (T : types_of m s = typing m (length s) u) by reflexivity. assert (T' : types_of m' s = typing m' (length s) u') by reflexivity. clearbody u u'. set (z := [acc [driver m] s; acc [driver m'] s]) in *.
    replace (firstn 11 (u ++ u' ++ z)) with u in X by (rewrite <- Lu, firstn_app, Nat.sub_diag, firstn_all; cbn [firstn]; symmetry; apply app_nil_r).
    replace (skipn 11 (u ++ u' ++ z)) with (u' ++ z) in X by (rewrite <- Lu, skipn_app, Nat.sub_diag, skipn_all; reflexivity).
    replace (firstn 11 (u' ++ z)) with u' in X by (rewrite <- Lu', firstn_app, Nat.sub_diag, firstn_all; cbn [firstn]; symmetry; apply app_nil_r).
    replace (nth 22 (u ++ u' ++ z) false) with (acc [driver m] s) in X by (rewrite app_assoc, app_nth2; rewrite app_length, Lu, Lu'; [reflexivity|lia]).
    replace (nth 23 (u ++ u' ++ z) false) with (acc [driver m'] s) in X by (rewrite app_assoc, app_nth2; rewrite app_length, Lu, Lu'; [reflexivity|lia]).
    rewrite <- T, <- T' in X. cbv zeta in X. rewrite (proj1 (types_some m s P D)) in X by eauto.
    destruct (claims_b m (types_of m s) (acc [driver m] s)); [left; reflexivity|right; exact X].
Qed.

(** * The regions of a calling code *)
Fixpoint with_meta (C : container) (l : list bytes) : option (list (bytes * (meta * (auto * list auto)))) :=
  match l with
  | [] => Some []
  | r :: l => match getMetadataForRegion C r with
              | Some m => match autos m, with_meta C l with Some a, Some t => Some ((r, (m, a)) :: t) | _, _ => None end
              | None => None
              end
  end.
Definition code_clear (exc : list Z) (C : container) (e : Z * list bytes) : bool :=
  match snd e with
  | [] | [_] => true
  | l => match with_meta C l with
         | Some (p :: ps) =>
             forallb (fun x => let '(r, (m, a)) := x in meta_plain m && short_b m && own_ok m (fst (snd p)) a (snd (snd p)) &&
                               forallb (fun y => let '(r', (m', a')) := y in if beq r r' then true else pair_ok (memz (fst e) exc) m m' a a') (p :: ps)) (p :: ps)
         | _ => false
         end
  end.
Definition regions_clear (exc : list Z) (C : container) : bool := forallb (code_clear exc C) (c_cc2region C).
Definition shared (C : container) (cc : Z) : Prop := (2 <= length (regions_of C cc))%nat.
(** The regions of a shared calling code agree: a number of one of them is claimed by some region, and each region that claims it gives it the same
    types; unless the code is excepted, a region that claims a fixed-line or mobile number of another region is that region. *)
Definition agrees (exc : list Z) (C : container) : Prop := forall cc r m s t, shared C cc -> In r (regions_of C cc) -> all_digits s = true -> getMetadataForRegion C r = Some m -> has_type m s t ->
  (exists r', In r' (regions_of C cc) /\ claims C s r') /\
  (forall r' m', In r' (regions_of C cc) -> getMetadataForRegion C r' = Some m' -> claims C s r' -> (forall u, has_type m' s u <-> has_type m s u) /\ (r' = r \/ (is_line t -> In cc exc))).
Lemma with_meta_in C l : forall t, with_meta C l = Some t -> map fst t = l /\ forall r m a, In (r, (m, a)) t -> getMetadataForRegion C r = Some m /\ autos_ok m a.
Proof.
  induction l as [|r l IH]; intros t H; cbn [with_meta] in H; [injection H as <-; split; [reflexivity|intros r m a []]|].
  destruct (getMetadataForRegion C r) as [m|] eqn:E; [|discriminate]. destruct (autos m) as [a|] eqn:Ea; [|discriminate]. destruct (with_meta C l) as [t'|]; [|discriminate]. injection H as <-.
  destruct (IH t' eq_refl) as (P & Q). split; [cbn; congruence|]. intros r0 m0 a0 [I|I]; [|apply Q; exact I]. injection I as <- <- <-. split; [exact E|apply autos_made; exact Ea].
Qed.
Lemma clear_agrees exc C : regions_clear exc C = true -> agrees exc C.
Proof.
  intros H cc r m s t Sh I D E T. unfold regions_clear in H. rewrite forallb_forall in H. unfold shared, regions_of in *. destruct (assocz cc (c_cc2region C)) as [l|] eqn:L; [|destruct I].
  apply assocz_In in L. specialize (H _ L). unfold code_clear in H. cbn [fst snd] in H. destruct l as [|r1 [|r2 l0]]; [destruct I|cbn in Sh; lia|]. set (l := r1 :: r2 :: l0) in *. clearbody l.
  destruct (with_meta C l) as [[|p ps]|] eqn:W; try discriminate. destruct (with_meta_in C l _ W) as (Wl & Wm). clear W. set (t0 := p :: ps) in *.
  assert (F : forall r, In r l -> forall m, getMetadataForRegion C r = Some m -> exists a, In (r, (m, a)) t0).
  { intros r0 I0 m0 E0. rewrite <- Wl in I0. apply in_map_iff in I0 as ((r0' & (m0' & a0)) & Q & I0). cbn [fst] in Q. subst r0'. pose proof (proj1 (Wm _ _ _ I0)) as E1. rewrite E0 in E1. injection E1 as <-. eauto. }
  rewrite forallb_forall in H. destruct (F r I m E) as (a & Ia). pose proof (H _ Ia) as H0. cbv beta iota zeta in H0. rewrite !andb_true_iff, forallb_forall in H0. destruct H0 as (((P & B) & O) & Pr).
  assert (Pl : forall r m a, In (r, (m, a)) t0 -> meta_plain m = true) by (intros r0 m0 a0 I0; specialize (H _ I0); cbv beta iota zeta in H; rewrite !andb_true_iff in H; tauto).
  destruct (Wm _ _ _ Ia) as (_ & Ha). split.
  - destruct p as [rp [mp ap]]. assert (Ip : In (rp, (mp, ap)) t0) by (left; reflexivity). destruct (Wm _ _ _ Ip) as (Ep & Hap). cbn [fst snd] in O.
    destruct (own_run C r rp m mp a ap s t O Ha Hap P (Pl _ _ _ Ip) B D E Ep T) as [K|K]; [exists r|exists rp]; split; auto. rewrite <- Wl. left. reflexivity.
  - intros r' m' I' E' K. destruct (F r' I' m' E') as (a' & Ia'). specialize (Pr _ Ia'). cbv beta iota zeta in Pr. destruct (beq_spec r r') as [Q|Q].
    + subst r'. rewrite E in E'. injection E' as <-. split; [reflexivity|left; reflexivity].
    + destruct (pair_run C _ r' m m' a a' s t Pr Ha (proj2 (Wm _ _ _ Ia')) P (Pl _ _ _ Ia') B D E' T K) as (U & V). split; [exact U|]. right. intros Lt. apply memz_iff. auto.
Qed.

(** Every region with metadata is listed under its calling code, and non-geographical codes have no region of their own. *)
Definition listed (C : container) : Prop :=
  (forall r m, getMetadataForRegion C r = Some m -> In r (regions_of C (mcc (Some m)))) /\
  (forall cc m, getMetadataForNonGeographicalRegion C cc = Some m -> regions_of C cc = [nonGeoEntity]).
Lemma reported_same m m' s t : (forall u, has_type m s u <-> has_type m' s u) -> reported_type m s t -> reported_type m' s t.
Proof.
  intros H [(pre & post & E & T & N)|(-> & N)]; [left; exists pre, post|right]; [split; [exact E|]|split; [reflexivity|]].
  - split; [apply H; exact T|]. intros u I. rewrite <- H. apply N. exact I.
  - intros u. rewrite <- H. apply N.
Qed.
Section Regions.
Variable C : container.
Variable exc : list Z.
Hypothesis W : wf_container C.
Hypothesis A : agrees exc C.
Hypothesis L : listed C.
Lemma for_region_in n r : IsValidNumberForRegion C n r = Ret true -> exists m t, In r (regions_of C (cc_of n)) /\ meta_of C (cc_of n) r = Some m /\ has_type m (GetNationalSignificantNumber n) t
  /\ (r = nonGeoEntity /\ regions_of C (cc_of n) = [nonGeoEntity] \/ getMetadataForRegion C r = Some m).
Proof.
  intros V. destruct (valid_for_region_spec C n r W) as (b & Eb & H). rewrite V in Eb. injection Eb as <-. destruct (proj1 H eq_refl) as (m & t & E & K & T). exists m, t.
  unfold getMetadataForRegionOrCallingCode in E. unfold meta_of. destruct (beq_spec nonGeoEntity r) as [Q|Q].
  - subst r. rewrite beq_refl. pose proof (proj2 L _ _ E) as R. rewrite R. split; [left; reflexivity|]. unfold getMetadataForNonGeographicalRegion in E. destruct (hasValidCountryCallingCode C (cc_of n)); [|discriminate]. auto.
  - assert (Q' : beq r nonGeoEntity = false) by (apply beq_neq; congruence). rewrite Q'. pose proof (proj1 L _ _ E) as R. specialize (K ltac:(congruence)). unfold getCountryCodeForValidRegion in K. rewrite E in K. rewrite K in R.
    split; [exact R|]. split; [|auto]. unfold getMetadataForRegion in E. destruct (isValidRegionCode C r); [exact E|discriminate].
Qed.
Lemma shared_geo cc r : shared C cc -> In r (regions_of C cc) -> exists m, getMetadataForRegion C r = Some m /\ meta_of C cc r = Some m /\ r <> nonGeoEntity /\ getCountryCodeForValidRegion C r = cc /\ getMetadataForRegionOrCallingCode C cc r = Some m.
Proof.
  intros Sh I. apply regions_of_In in I as (l & Il & Ir & R). unfold shared in Sh. rewrite R in Sh. destruct (wf_cc _ W _ _ Il) as (_ & _ & _ & G & _).
  assert (N : r <> nonGeoEntity) by (intros ->; rewrite (G Ir) in Sh; cbn in Sh; lia). destruct (nongeo_valid_cc C cc l r W Il Ir R) as (m & E1 & E2 & _ & H & _). destruct (H N) as (H1 & H2). exists m. auto.
Qed.
(** The region found for a number of a region. *)
Lemma found n r : IsValidNumberForRegion C n r = Ret true -> exists q m mq t, GetRegionCodeForNumber C n = Ret q /\ q <> [] /\ In q (regions_of C (cc_of n)) /\ meta_of C (cc_of n) r = Some m /\ meta_of C (cc_of n) q = Some mq
  /\ has_type m (GetNationalSignificantNumber n) t /\ (forall u, has_type mq (GetNationalSignificantNumber n) u <-> has_type m (GetNationalSignificantNumber n) u)
  /\ (q = r \/ forall u, is_line u -> has_type m (GetNationalSignificantNumber n) u -> In (cc_of n) exc).
Proof.
  intros V. destruct (for_region_in n r V) as (m & t & I & E & T & G). destruct (region_for_number_spec C n W) as (q & Eq & Iq & Sh & One). pose proof (nsn_digits n) as D.
  assert (Sc : (2 <= length (regions_of C (cc_of n)))%nat \/ exists r1, regions_of C (cc_of n) = [r1]) by (destruct (regions_of C (cc_of n)) as [|a [|b l]]; [destruct I|right; eauto|left; cbn; lia]).
  destruct Sc as [Sc|(r1 & R1)].
  - destruct (shared_geo (cc_of n) r Sc I) as (m1 & E1 & E1' & Nr & _). rewrite E in E1'. injection E1' as <-. destruct (A _ _ _ _ _ Sc I D E1 T) as ((r' & I' & K') & Z).
    destruct (Sh Sc) as [(-> & No)|(pre & post & Rp & Kq & _)]; [destruct (No r' I' K')|]. assert (Jq : In q (regions_of C (cc_of n))) by (rewrite Rp; apply in_or_app; right; left; reflexivity).
    destruct (shared_geo (cc_of n) q Sc Jq) as (mq & Eq1 & Eq2 & Nq & _). destruct (Z q mq Jq Eq1 Kq) as (U & _). exists q, m, mq, t. split; [exact Eq|]. split; [intros ->; discriminate Eq1|]. split; [exact Jq|]. split; [exact E|]. split; [exact Eq2|]. split; [exact T|]. split; [exact U|].
    destruct (list_eq_dec N.eq_dec q r) as [Q|Q]; [left; exact Q|]. right. intros u Lu Tu. destruct (A _ _ _ _ _ Sc I D E1 Tu) as (_ & Z'). destruct (Z' q mq Jq Eq1 Kq) as (_ & [?|X]); [contradiction|auto].
  - rewrite R1 in I. destruct I as [<-|[]]. pose proof (One _ R1) as ->. exists r1, m, m, t. split; [exact Eq|].
    split. { intros ->. destruct G as [(G & _)|G]; [discriminate G|discriminate G]. }
    split; [rewrite R1; left; reflexivity|]. split; [exact E|]. split; [exact E|]. split; [exact T|]. split; [reflexivity|left; reflexivity].
Qed.
Lemma for_region_valid n r : IsValidNumberForRegion C n r = Ret true -> IsValidNumber C n = Ret true.
Proof.
  intros V. destruct (found n r V) as (q & m & mq & t & Eq & Nq & Iq & E & Emq & T & U & _). destruct (valid_spec C n W) as (q' & b & Eq' & Eb & Ev). rewrite Eq in Eq'. injection Eq' as <-. rewrite Ev, <- Eb.
  destruct (valid_for_region_spec C n q W) as (b' & Eb' & H). rewrite Eb'. f_equal. apply H. destruct (found_region_meta C n q W Eq Nq) as (m2 & E1 & E2 & Wm & Hc & _). rewrite Emq in E2. injection E2 as <-.
  exists mq, t. split; [exact E1|]. split; [exact Hc|]. apply U. exact T.
Qed.
Lemma valid_iff_region n : IsValidNumber C n = Ret true <-> exists r, IsValidNumberForRegion C n r = Ret true.
Proof.
  split; [|intros (r & V); eapply for_region_valid; exact V]. intros V. destruct (valid_spec C n W) as (q & b & Eq & Eb & Ev). exists q. congruence.
Qed.
Lemma type_any_region n r m : IsValidNumberForRegion C n r = Ret true -> meta_of C (cc_of n) r = Some m -> exists t, GetNumberType C n = Ret t /\ reported_type m (GetNationalSignificantNumber n) t.
Proof.
  intros V Em. destruct (found n r V) as (q & m' & mq & t & Eq & Nq & Iq & E & Emq & T & U & _). rewrite Em in E. injection E as <-.
  destruct (type_reported C n q mq W Eq Nq Emq) as (u & Eu & Ru). exists u. split; [exact Eu|]. apply (reported_same mq m); [exact U|exact Ru].
Qed.
Lemma line_one_region n r t : IsValidNumberForRegion C n r = Ret true -> GetNumberType C n = Ret t -> is_line t -> ~ In (cc_of n) exc -> GetRegionCodeForNumber C n = Ret r.
Proof.
  intros V Et Lt Nx. destruct (found n r V) as (q & m' & mq & t' & Eq & Nq & Iq & E & Emq & T & U & [Q|X]); [congruence|]. exfalso. apply Nx.
  destruct (type_any_region n r m' V E) as (u & Eu & Ru). rewrite Et in Eu. injection Eu as <-. apply (X t Lt). destruct Ru as [(pre & post & _ & H & _)|(-> & _)]; [exact H|]. destruct Lt as [Lt|[Lt|Lt]]; discriminate Lt.
Qed.
End Regions.
(** The order in which regions are listed. *)
Definition reordered (C C' : container) : Prop :=
  c_region C' = c_region C /\ c_nongeo C' = c_nongeo C /\ (forall r, In r (c_regions C') <-> In r (c_regions C)) /\
  forall cc, Permutation (regions_of C' cc) (regions_of C cc) /\ (hasValidCountryCallingCode C' cc = hasValidCountryCallingCode C cc).
Section Reorder.
Variables C C' : container.
Hypothesis R : reordered C C'.
Lemma re_valid r : isValidRegionCode C' r = isValidRegionCode C r.
Proof. apply eq_true_iff_eq. unfold isValidRegionCode. rewrite !andb_true_iff, !mem_bytes_iff. destruct R as (_ & _ & H & _). rewrite H. reflexivity. Qed.
Lemma re_meta r : getMetadataForRegion C' r = getMetadataForRegion C r.
Proof. unfold getMetadataForRegion. rewrite re_valid. destruct R as (-> & _). reflexivity. Qed.
Lemma re_nongeo cc : getMetadataForNonGeographicalRegion C' cc = getMetadataForNonGeographicalRegion C cc.
Proof. unfold getMetadataForNonGeographicalRegion. destruct R as (_ & -> & _ & H). destruct (H cc) as (_ & ->). reflexivity. Qed.
Lemma re_claims s r : claims C' s r <-> claims C s r.
Proof. unfold claims. rewrite re_meta. reflexivity. Qed.
Lemma re_agrees exc : agrees exc C -> agrees exc C'.
Proof.
  intros A cc r m s t Sh I D E T. destruct R as (_ & _ & _ & P). destruct (P cc) as (Pc & _). unfold shared in *. rewrite (Permutation_length Pc) in Sh. apply (Permutation_in _ Pc) in I. rewrite re_meta in E.
  destruct (A cc r m s t Sh I D E T) as ((r' & I' & K) & Z). split.
  - exists r'. split; [apply (Permutation_in _ (Permutation_sym Pc)); exact I'|]. apply re_claims. exact K.
  - intros r0 m0 I0 E0 K0. rewrite re_meta in E0. apply re_claims in K0. apply (Permutation_in _ Pc) in I0. apply (Z r0 m0 I0 E0 K0).
Qed.
Lemma re_listed : listed C -> listed C'.
Proof.
  intros (A & B). destruct R as (_ & _ & _ & P). split.
  - intros r m E. rewrite re_meta in E. apply (Permutation_in _ (Permutation_sym (proj1 (P _)))). apply A. exact E.
  - intros cc m E. rewrite re_nongeo in E. specialize (B cc m E). pose proof (proj1 (P cc)) as Q. rewrite B in Q. symmetry in Q. apply Permutation_length_1_inv in Q. exact Q.
Qed.
Lemma re_for_region n r : IsValidNumberForRegion C' n r = IsValidNumberForRegion C n r.
Proof. unfold IsValidNumberForRegion, getMetadataForRegionOrCallingCode, getCountryCodeForValidRegion. rewrite re_nongeo, re_meta. reflexivity. Qed.
Lemma re_meta_of cc r : meta_of C' cc r = meta_of C cc r.
Proof. unfold meta_of. destruct R as (-> & -> & _). reflexivity. Qed.
Lemma re_same exc n : wf_container C -> wf_container C' -> agrees exc C -> listed C -> IsValidNumber C' n = IsValidNumber C n /\ GetNumberType C' n = GetNumberType C n.
Proof.
  intros W W' A L. pose proof (re_agrees exc A) as A'. pose proof (re_listed L) as L'. destruct (type_valid_spec C n W) as (t & b & Et & Eb & Hb & _). destruct (type_valid_spec C' n W') as (t' & b' & Et' & Eb' & Hb' & _).
  assert (Q : b = b').
  { apply eq_true_iff_eq. pose proof (valid_iff_region C exc W A L n) as V. pose proof (valid_iff_region C' exc W' A' L' n) as V'. rewrite Eb in V. rewrite Eb' in V'. split.
    - intros ->. destruct (proj1 V eq_refl) as (r & Hr). assert (X : Ret b' = Ret true) by (apply V'; exists r; rewrite re_for_region; exact Hr). congruence.
    - intros ->. destruct (proj1 V' eq_refl) as (r & Hr). assert (X : Ret b = Ret true) by (apply V; exists r; rewrite <- re_for_region; exact Hr). congruence. }
  subst b'. split; [congruence|]. rewrite Et, Et'. f_equal. destruct b.
  - destruct (proj1 (valid_iff_region C exc W A L n) Eb) as (r & Hr). destruct (for_region_in C W L n r Hr) as (m & u & _ & Em & _). destruct (type_any_region C exc W A L n r m Hr Em) as (t1 & E1 & R1).
    rewrite <- re_for_region in Hr. rewrite <- re_meta_of in Em. destruct (type_any_region C' exc W' A' L' n r m Hr Em) as (t2 & E2 & R2). rewrite Et in E1. rewrite Et' in E2. injection E1 as <-. injection E2 as <-. eapply reported_unique; eassumption.
  - assert (N : t = UNKNOWN) by (destruct t; try reflexivity; exfalso; assert (X : false = true) by (apply Hb; discriminate); discriminate X).
    assert (N' : t' = UNKNOWN) by (destruct t'; try reflexivity; exfalso; assert (X : false = true) by (apply Hb'; discriminate); discriminate X). congruence.
Qed.
End Reorder.
