(** From the lines of the source files to the entries of a table: proofs. *)
From Coq Require Import Permutation Sorting Lia.
From Verif Require Import Base BaseFacts Utf8 Utf8Facts Types Serialize MetaBuild Container TableSpec TableFacts PrefixFacts.
Local Open Scope N_scope.

Lemma split_none c v : ~ In c v -> split_byte v c = [v].
Proof.
  induction v as [|x v IH]; intros H; simpl; [reflexivity|]. destruct (N.eqb_spec x c) as [->|]; [exfalso; apply H; left; auto|]. rewrite IH; [reflexivity|]. intros I. apply H. right. auto.
Qed.
Lemma split_one c v r : ~ In c v -> split_byte (v ++ c :: r) c = v :: split_byte r c.
Proof.
  induction v as [|x v IH]; intros H; simpl. { rewrite N.eqb_refl. reflexivity. }
  destruct (N.eqb_spec x c) as [->|]; [exfalso; apply H; left; auto|]. rewrite IH; [reflexivity|]. intros I. apply H. right. auto.
Qed.
Lemma split_nonempty c s : split_byte s c <> [].
Proof. destruct s as [|x s]; simpl; [discriminate|]. destruct (x =? c); [discriminate|]. destruct (split_byte s c); discriminate. Qed.
Lemma split_free c s g : In g (split_byte s c) -> ~ In c g.
Proof.
  revert g. induction s as [|x s IH]; simpl; intros g. { intros [<-|[]] []. }
  destruct (N.eqb_spec x c) as [->|Ne]. { intros [<-|H]; [intros []|auto]. }
  destruct (split_byte s c) as [|g0 gs]. { intros [<-|[]] [->|[]]. congruence. }
  intros [<-|H]; [|apply IH; right; auto]. intros [->|I]; [congruence|]. apply (IH g0 (or_introl eq_refl)). exact I.
Qed.
Lemma split_head c s g gs : split_byte s c = g :: gs -> (gs = [] /\ s = g) \/ exists r, s = g ++ c :: r /\ split_byte r c = gs.
Proof.
  revert g gs. induction s as [|x s IH]; simpl; intros g gs. { intros E. injection E as <- <-. auto. }
  destruct (N.eqb_spec x c) as [->|Ne]. { intros E. injection E as <- <-. right. exists s. auto. }
  destruct (split_byte s c) as [|g0 gs0] eqn:Q; [apply split_nonempty in Q; destruct Q|]. intros E. injection E as <- <-.
  destruct (IH g0 gs0 eq_refl) as [(-> & ->)|(r & -> & R)]; [auto|]. right. exists r. auto.
Qed.
Lemma split_two c s p v : split_byte s c = [p; v] <-> s = p ++ c :: v /\ ~ In c p /\ ~ In c v.
Proof.
  split.
  - intros E. assert (P : ~ In c p) by (apply (split_free c s); rewrite E; left; auto). assert (Q : ~ In c v) by (apply (split_free c s); rewrite E; right; left; auto).
    split; [|auto]. destruct (split_head c s p [v] E) as [(X & _)|(r & -> & R)]; [discriminate|]. destruct (split_head c r v [] R) as [(_ & ->)|(r' & _ & R')]; [reflexivity|]. apply split_nonempty in R'. destruct R'.
  - intros (-> & P & Q). rewrite split_one by exact P. rewrite split_none by exact Q. reflexivity.
Qed.
Lemma atoi_first p k : atoi p = Some k -> exists c t, p = c :: t /\ (c = 43 \/ c = 45 \/ 48 <= c <= 57).
Proof.
  destruct p as [|c t]; [discriminate|]. intros H. exists c, t. split; [reflexivity|]. destruct (N.eq_dec c 43); [auto|]. destruct (N.eq_dec c 45); [auto|]. right. right.
  assert (G : all_digits (c :: t) = true).
  { destruct (all_digits (c :: t)) eqn:E; [reflexivity|]. exfalso. revert H. unfold atoi.
    destruct c as [|[[[[[[p|p|]|[p|p|]|]|[[p|p|]|[p|p|]|]|]|[[[p|p|]|[p|p|]|]|[[p|p|]|[p|p|]|]|]|]|[[[[p|p|]|[p|p|]|]|[[p|p|]|[p|p|]|]|]|[[[p|p|]|[p|p|]|]|[[p|p|]|[p|p|]|]|]|]|]|[[[[[p|p|]|[p|p|]|]|[[p|p|]|[p|p|]|]|]|[[[p|p|]|[p|p|]|]|[[p|p|]|[p|p|]|]|]|]|[[[[p|p|]|[p|p|]|]|[[p|p|]|[p|p|]|]|]|[[[p|p|]|[p|p|]|]|[[p|p|]|[p|p|]|]|]|]|]|]]; try congruence; rewrite E; simpl; discriminate. }
  simpl in G. apply andb_true_iff in G as [G _]. apply is_digit_iff in G. exact G.
Qed.
Lemma blank_ascii c t : c < 128 -> uspace c = false -> blank (c :: t) = false.
Proof.
  intros L U. unfold blank. rewrite runes_ascii_cons by exact L. simpl. rewrite U. reflexivity.
Qed.
Lemma says_plain line k v : says line k v -> has_prefix line [35] || blank line = false.
Proof.
  intros (p & -> & _ & _ & A). destruct (atoi_first p k A) as (c & t & -> & C). apply orb_false_iff. split.
  - simpl. destruct (N.eqb_spec 35 c); [lia|reflexivity].
  - simpl. apply blank_ascii; [lia|]. destruct C as [->|[->|C]]; [reflexivity|reflexivity|]. unfold uspace, in_rng. repeat (apply orb_false_iff; split); lia.
Qed.
Lemma says_split line k v : says line k v <-> exists p, split_byte line 124 = [p; v] /\ atoi p = Some k.
Proof.
  split.
  - intros (p & E & P & V & A). exists p. split; [|exact A]. apply split_two. auto.
  - intros (p & E & A). apply split_two in E as (E & P & V). exists p. auto.
Qed.

(** One line of a prefix file *)
Lemma read_mapping_spec acc line m : read_mapping acc line = Ret m ->
  (exists k v, says line k v /\ blank v = false /\ (0 <= k)%Z /\ assocz k acc = None /\ m = acc ++ [(k, v)]) \/ (m = acc /\ forall k v, says line k v -> blank v = true).
Proof.
  unfold read_mapping. destruct (has_prefix line [35] || blank line) eqn:B. { intros E. apply ret_inj in E. right. split; [auto|]. intros k v S. apply says_plain in S. congruence. }
  destruct (split_byte line 124) as [|p [|v [|w gs]]] eqn:Sp.
  1,2,4: intros E; apply ret_inj in E; right; split; [auto|]; intros k v' S; apply says_split in S as (p' & S & _); congruence.
  destruct (atoi p) as [k|] eqn:A; [|discriminate]. destruct (Z.ltb_spec k 0); [discriminate|].
  assert (Sy : says line k v) by (apply says_split; eauto).
  destruct (blank v) eqn:Bv.
  - intros E. apply ret_inj in E. right. split; [auto|]. intros k' v' S. apply says_split in S as (p' & S & _). rewrite Sp in S. injection S as <- <-. exact Bv.
  - destruct (assocz k acc) eqn:As; [discriminate|]. cbn [is_some]. intros E. apply ret_inj in E. left. exists k, v. auto.
Qed.
Lemma assocz_none_key {V} k (l : list (Z * V)) : assocz k l = None -> ~ In k (map fst l).
Proof.
  unfold assocz. induction l as [|[k' v] l IH]; simpl; [auto|]. destruct (Z.eqb_spec k k') as [->|Ne]; [discriminate|]. intros H [E|I]; [congruence|]. apply IH; auto.
Qed.
Lemma atoi_range p k : atoi p = Some k -> (-9223372036854775808 <= k < 9223372036854775808)%Z.
Proof.
  assert (G : forall t, (if negb (is_empty t) && all_digits t && (dval t <? two63) then Some (Z.of_N (dval t)) else None) = Some k -> (-9223372036854775808 <= k < 9223372036854775808)%Z).
  { intros t. destruct (_ && (dval t <? two63)) eqn:E; [|discriminate]. intros K. injection K as <-. apply andb_true_iff in E as [_ E]. apply N.ltb_lt in E. unfold two63 in E. lia. }
  unfold atoi. destruct p as [|c t]; [apply G|].
  destruct (N.eq_dec c 43) as [->|N43]; [apply G|]. destruct (N.eq_dec c 45) as [->|N45].
  { destruct (_ && (dval t <=? two63)) eqn:E; [|discriminate]. intros K. injection K as <-. apply andb_true_iff in E as [_ E]. apply N.leb_le in E. unfold two63 in E. lia. }
  intros H. apply (G (c :: t)). revert H.
  destruct c as [|[[[[[[p|p|]|[p|p|]|]|[[p|p|]|[p|p|]|]|]|[[[p|p|]|[p|p|]|]|[[p|p|]|[p|p|]|]|]|]|[[[[p|p|]|[p|p|]|]|[[p|p|]|[p|p|]|]|]|[[[p|p|]|[p|p|]|]|[[p|p|]|[p|p|]|]|]|]|]|[[[[[p|p|]|[p|p|]|]|[[p|p|]|[p|p|]|]|]|[[[p|p|]|[p|p|]|]|[[p|p|]|[p|p|]|]|]|]|[[[[p|p|]|[p|p|]|]|[[p|p|]|[p|p|]|]|]|[[[p|p|]|[p|p|]|]|[[p|p|]|[p|p|]|]|]|]|]|]]; try congruence; auto.
Qed.
Lemma foldM_app {A B} (f : A -> B -> M A) a l1 l2 : foldM f a (l1 ++ l2) = bind (foldM f a l1) (fun a => foldM f a l2).
Proof. revert a. induction l1 as [|x l1 IH]; intros a; simpl; [reflexivity|]. destruct (f a x); simpl; auto. Qed.
Lemma read_dir_flat files : readMappingsForDir files = foldM read_mapping [] (concat (map lines files)).
Proof.
  unfold readMappingsForDir. generalize (@nil (Z * bytes)). induction files as [|f files IH]; intros acc; [reflexivity|]. cbn [map concat]. rewrite foldM_app. cbn [foldM]. unfold lines at 1.
  destruct (foldM read_mapping acc (split_byte f 10)); cbn [bind]; auto.
Qed.
Lemma read_lines_spec l acc m : NoDup (map fst acc) -> foldM read_mapping acc l = Ret m -> NoDup (map fst m) /\
  forall k v, In (k, v) m <-> In (k, v) acc \/ exists line, In line l /\ says line k v /\ blank v = false.
Proof.
  revert acc. induction l as [|line l IH]; intros acc D E; cbn [foldM] in E.
  - apply ret_inj in E. subst m. split; [exact D|]. intros k v. split; [auto|]. intros [H|(x & [] & _)]. exact H.
  - apply bind_ret in E as (acc' & E1 & E). destruct (read_mapping_spec _ _ _ E1) as [(k & v & S & B & K & As & ->)|(-> & Nn)].
    + destruct (IH (acc ++ [(k, v)])) as (D' & I'); [|exact E|].
      { rewrite map_app. apply Permutation_NoDup with (l := k :: map fst acc); [apply Permutation_cons_append|]. constructor; [apply assocz_none_key; exact As|exact D]. }
      split; [exact D'|]. intros k' v'. rewrite I', in_app_iff. split.
      * intros [[H|[H|[]]]|(x & X & Y)]; [auto| |right; exists x; split; [right; auto|exact Y]]. injection H as <- <-. right. exists line. split; [left; auto|auto].
      * intros [H|(x & [<-|X] & Y & Z)]; [auto| |right; exists x; auto]. left. right. left. apply says_split in S as (p1 & S1 & A1), Y as (p2 & S2 & A2). rewrite S1 in S2. injection S2 as <- <-. congruence.
    + destruct (IH acc D E) as (D' & I'). split; [exact D'|]. intros k' v'. rewrite I'. split.
      * intros [H|(x & X & Y)]; [auto|]. right. exists x. split; [right; auto|exact Y].
      * intros [H|(x & [<-|X] & Y & Z)]; [auto| |right; exists x; auto]. rewrite (Nn _ _ Y) in Z. discriminate.
Qed.
Lemma lines_free files line : In line (concat (map lines files)) -> ~ In 10 line.
Proof. intros H. apply in_concat in H as (x & X & L). apply in_map_iff in X as (f & <- & _). eapply split_free. exact L. Qed.
Lemma read_dir_spec files m : readMappingsForDir files = Ret m -> go_map m /\ (forall k v, In (k, v) m -> ~ In 10 v) /\
  forall k v, In (k, v) m <-> exists f line, In f files /\ In line (lines f) /\ says line k v /\ blank v = false.
Proof.
  intros E. rewrite read_dir_flat in E. destruct (read_lines_spec _ [] m (NoDup_nil _) E) as (D & I). split; [split; [exact D|]|split].
  - intros k v H. apply I in H as [[]|(line & _ & (p & _ & _ & _ & A) & _)]. eapply atoi_range. exact A.
  - intros k v H. apply I in H as [[]|(line & L & (p & -> & _) & _)]. apply lines_free in L. intros J. apply L. apply in_or_app. right. right. exact J.
  - intros k v. rewrite I. split.
    + intros [[]|(line & L & S)]. apply in_concat in L as (x & X & L). apply in_map_iff in X as (f & <- & F). exists f, line. auto.
    + intros (f & line & F & L & S). right. exists line. split; [|exact S]. apply in_concat. exists (lines f). split; [apply in_map; exact F|exact L].
Qed.

(** The timezone file *)
Lemma map_put_look {V} k k' (v : V) l : assocz k (map_put Z.eqb k' v l) = if (k =? k')%Z then Some v else assocz k l.
Proof.
  unfold assocz. induction l as [|[k0 v0] l IH]; simpl. { destruct (k =? k')%Z; reflexivity. }
  destruct (Z.eqb_spec k' k0) as [->|Ne]; simpl. { destruct (k =? k0)%Z; reflexivity. }
  rewrite IH. destruct (Z.eqb_spec k k0) as [->|]; [|reflexivity]. destruct (Z.eqb_spec k0 k'); [congruence|reflexivity].
Qed.
Lemma map_put_keys {V} k (v : V) l x : In x (map fst (map_put Z.eqb k v l)) <-> x = k \/ In x (map fst l).
Proof.
  induction l as [|[k0 v0] l IH]; simpl; [intuition|]. destruct (Z.eqb_spec k k0) as [->|Ne]; simpl; [intuition|]. rewrite IH. intuition.
Qed.
Lemma map_put_nodup {V} k (v : V) l : NoDup (map fst l) -> NoDup (map fst (map_put Z.eqb k v l)).
Proof.
  induction l as [|[k0 v0] l IH]; simpl; intros D. { constructor; [auto|constructor]. }
  inversion_clear D as [|? ? D1 D2]. destruct (Z.eqb_spec k k0) as [->|Ne]; simpl; constructor; auto. intros I. apply map_put_keys in I as [->|I]; [congruence|auto].
Qed.
Lemma read_zones_spec acc line m : read_zones acc line = Ret m ->
  (exists k v, says line k v /\ m = map_put Z.eqb k (split_byte v 38) acc) \/ (m = acc /\ forall k v, ~ says line k v).
Proof.
  unfold read_zones. destruct (has_prefix line [35] || blank line) eqn:B. { intros E. apply ret_inj in E. right. split; [auto|]. intros k v S. apply says_plain in S. congruence. }
  destruct (split_byte line 124) as [|p [|v [|w gs]]] eqn:Sp; try discriminate.
  destruct (atoi p) as [k|] eqn:A; [|discriminate]. intros E. apply ret_inj in E. left. exists k, v. split; [apply says_split; eauto|auto].
Qed.
Lemma last_says_snoc l line k v : last_says (l ++ [line]) k v <-> says line k v \/ ((forall v', ~ says line k v') /\ last_says l k v).
Proof.
  split.
  - intros (l1 & x & l2 & E & S & F). destruct l2 as [|y l2] using rev_ind.
    + apply app_inj_tail in E as [<- <-]. auto.
    + clear IHl2. rewrite app_comm_cons, app_assoc in E. apply app_inj_tail in E as [-> <-]. right. split; [intros v'; apply F; apply in_or_app; right; left; auto|].
      exists l1, x, l2. split; [reflexivity|]. split; [exact S|]. intros line' v' I. apply F. apply in_or_app. auto.
  - intros [S|(N0 & l1 & x & l2 & -> & S & F)].
    + exists l, line, []. split; [reflexivity|]. split; [exact S|]. intros line' v' [].
    + exists l1, x, (l2 ++ [line]). split; [rewrite <- app_assoc; reflexivity|]. split; [exact S|]. intros line' v' I. apply in_app_iff in I as [I|[<-|[]]]; auto.
Qed.
Lemma read_zone_lines l m : foldM read_zones [] l = Ret m -> NoDup (map fst m) /\ (forall k zs, In (k, zs) m <-> exists v, last_says l k v /\ zs = split_byte v 38).
Proof.
  revert m. induction l as [|line l IH] using rev_ind; intros m E.
  - cbn in E. apply ret_inj in E. subst m. split; [constructor|]. intros k zs. split; [intros []|]. intros (v & (l1 & x & l2 & X & _) & _). destruct l1; discriminate.
  - rewrite foldM_app in E. apply bind_ret in E as (acc & E1 & E). destruct (IH acc E1) as (D & I). cbn [foldM] in E. apply bind_ret in E as (m' & E2 & E). apply ret_inj in E. subst m'.
    destruct (read_zones_spec _ _ _ E2) as [(k & v & S & ->)|(-> & Nn)].
    + pose proof (map_put_nodup k (split_byte v 38) acc D) as D'. split; [exact D'|]. intros k' zs. rewrite <- (assocz_nodup _ _ _ D'), map_put_look. split.
      * destruct (Z.eqb_spec k' k) as [->|Ne]. { intros H. injection H as <-. exists v. split; [|reflexivity]. apply last_says_snoc. auto. }
        intros H. apply (assocz_nodup _ _ _ D) in H. apply I in H as (v' & L & ->). exists v'. split; [|reflexivity]. apply last_says_snoc. right. split; [|exact L]. intros v'' S'.
        apply says_split in S as (p1 & S1 & A1), S' as (p2 & S2 & A2). rewrite S1 in S2. injection S2 as <- <-. congruence.
      * intros (v' & L & ->). apply last_says_snoc in L as [S'|(N0 & L)].
        { apply says_split in S as (p1 & S1 & A1), S' as (p2 & S2 & A2). rewrite S1 in S2. injection S2 as <- <-. rewrite A1 in A2. injection A2 as ->. rewrite Z.eqb_refl. reflexivity. }
        destruct (Z.eqb_spec k' k) as [->|Ne]; [exfalso; eapply N0; exact S|]. apply (assocz_nodup _ _ _ D). apply I. eauto.
    + split; [exact D|]. intros k' zs. rewrite I. split; intros (v & L & ->); exists v; (split; [|reflexivity]).
      * apply last_says_snoc. right. split; [intros v'; apply Nn|exact L].
      * apply last_says_snoc in L as [S|(_ & L)]; [exfalso; eapply Nn; exact S|exact L].
Qed.
