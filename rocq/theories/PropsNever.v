(** What the text search never takes for a number. *)
From Verif Require Import Base BaseFacts Utf8 Utf8Facts Regex RegexSpec RegexFacts LangFacts Consts Types Normalize Validate Format Parse Matcher MetaSpec MatcherSpec AytfFacts MatcherFacts Shipped PropsMatcher NeverSpec NeverFacts NeverMore.
Local Opaque re_find re_find_all re_match.
Local Open Scope nat_scope.

Lemma search_origin C A text region l t yield ms m p : FindNumbersWithLeniency C A text region l t yield = Ret (ms, m) -> In (Some p) ms -> origin text p.
Proof.
  intros F I. unfold FindNumbersWithLeniency in F. pose proof (loop_origin C A yield (S (S (len text))) (newPhoneNumberMatcher text region l t) []) as H. rewrite F in H. cbn [holds fst newPhoneNumberMatcher mx_last mx_cfg mc_text] in H. apply H; [discriminate|intros q []|exact I].
Qed.

(** * C78: no match contains a date written with slashes, whatever the leniency, the region and the metadata. *)
Theorem C78_dates : forall C A text region l t yield ms m p, FindNumbersWithLeniency C A text region l t yield = Ret (ms, m) -> In (Some p) ms ->
  forall a d b, slash_date d -> pm_raw p <> a ++ d ++ b.
Proof.
  intros C A text region l t yield ms m p F I a d b D E. destruct (search_origin _ _ _ _ _ _ _ _ _ _ F I) as (_ & cand & off & i & (_ & _ & S & _) & (u & v & Ec & _) & _).
  apply (no_date cand (u ++ a) d (b ++ v) S D). rewrite Ec, E, <- !app_assoc. reflexivity.
Qed.
Print Assumptions C78_dates.
Example C78_dates_witness : slash_date (bs "08/31/95") /\ slash_date (bs "3/10/2011") /\
  positions (FindNumbersWithLeniency shipped shipped_alt (bs "born 08/31/1995, call 650/253/0000") (bs "US") POSSIBLE 10 all_of) = [Some (22, 34)].
Proof.
  split; [|split].
  - exists (bs "08"), (bs "31"), (bs "95"). split; [reflexivity|]. split; [right; split; right; eexists _, _; (split; [reflexivity|]; split; [split; discriminate|reflexivity])|left; eexists _, _; split; [reflexivity|split; reflexivity]].
  - exists (bs "3"), (bs "10"), (bs "2011"). split; [reflexivity|]. split; [left; split; [left; eexists; split; reflexivity|right; eexists _, _; split; [reflexivity|split; [split; discriminate|reflexivity]]]|]. right. eexists _, _, _, _. split; [reflexivity|]. split; [split; discriminate|]. split; [reflexivity|split; reflexivity].
  - vm_compute. reflexivity.
Qed.

(** No match ends in date and hour when the minutes come next. *)
Theorem C78_times : forall C A text region l t yield ms m p, FindNumbersWithLeniency C A text region l t yield = Ret (ms, m) -> In (Some p) ms ->
  forall a b, text = a ++ pm_raw p ++ b -> length a = pm_start p -> minutes b -> forall c h, hour_stamp h -> pm_raw p <> c ++ h.
Proof.
  intros C A text region l t yield ms m p F I a b Et La Mi c h H E. destruct (search_origin _ _ _ _ _ _ _ _ _ _ F I) as (_ & cand & off & i & ((x & y & Ex & Lx) & Ap & _ & Ts) & (u & v & Ec & Lu) & Es).
  assert (Eb : b = v ++ y). { assert (K : a ++ pm_raw p ++ b = (x ++ u) ++ pm_raw p ++ v ++ y) by (rewrite <- Et, Ex, Ec, <- !app_assoc; reflexivity). assert (Lxu : length a = length (x ++ u)) by (rewrite app_length; lia).
    apply (f_equal (skipn (length a))) in K. rewrite (skipn_app (length a) a), skipn_all, Nat.sub_diag in K. rewrite Lxu, (skipn_app (length (x ++ u)) (x ++ u)), skipn_all, Nat.sub_diag in K. cbn [skipn app] in K. apply app_inv_head in K. exact K. }
  destruct v as [|v0 v].
  - cbn [app] in Eb. subst b. rewrite app_nil_r in Ec. apply (no_stamp text cand off x h y (u ++ c) Ts Ex Lx Mi H). rewrite Ec, E, app_assoc. reflexivity.
  - destruct Mi as (m1 & m2 & z & Em & _). rewrite Em in Eb. cbn [app] in Eb. injection Eb as <- _.
    destruct H as (y1 & y2 & y3 & y4 & pp & q1 & q2 & q & d1 & d2 & k & h1 & h2 & Eh & _ & _ & _ & _ & _ & _ & _ & _ & _ & _ & _ & Hh).
    assert (K : is_digit h2 = false). { apply (Ap (u ++ c ++ y1 :: y2 :: y3 :: y4 :: pp ++ q1 :: q2 :: q ++ d1 :: d2 :: repeat 32%N (S k) ++ [h1]) h2 v). rewrite Ec, E, Eh. repeat (rewrite <- ?app_assoc; cbn [app]). reflexivity. }
    congruence.
Qed.
Print Assumptions C78_times.
Example C78_times_witness : hour_stamp (bs "2012-01-02 08") /\ minutes (bs ":00") /\
  positions (FindNumbersWithLeniency shipped shipped_alt (bs "2012-01-02 08:00") (bs "US") POSSIBLE 10 all_of) = [] /\
  positions (FindNumbersWithLeniency shipped shipped_alt (bs "2012-01-02 08") (bs "US") POSSIBLE 10 all_of) = [Some (0, 13)].
Proof.
  split; [|split; [|split; vm_compute; reflexivity]].
  - exists 50%N, 48%N, 49%N, 50%N, [45%N], 48%N, 49%N, [45%N], 48%N, 50%N, 0, 48%N, 56%N. split; [reflexivity|]. split; [split; discriminate|]. do 3 (split; [reflexivity|]). split; [right; left; reflexivity|]. split; [split; discriminate|]. split; [reflexivity|]. split; [right; left; reflexivity|].
    split; [split; discriminate|]. split; [reflexivity|]. split; [split; discriminate|reflexivity].
  - exists 48%N, 48%N, []. split; [reflexivity|]. split; [split; discriminate|reflexivity].
Qed.

(** No match contains pages and year of a citation. *)
Theorem C78_pages : forall C A text region l t yield ms m p, FindNumbersWithLeniency C A text region l t yield = Ret (ms, m) -> In (Some p) ms ->
  forall a r b, page_reference r -> pm_raw p <> a ++ r ++ b.
Proof.
  intros C A text region l t yield ms m p F I a r b R E. destruct (search_origin _ _ _ _ _ _ _ _ _ _ F I) as ((_ & P) & _). exact (no_page _ a r b P R E).
Qed.
Print Assumptions C78_pages.
Example C78_pages_witness : page_reference (bs "211-227 (2003") /\
  positions (FindNumbersWithLeniency shipped shipped_alt (bs "pp. 211-227 (2003) and 650-253 (0000)") (bs "US") POSSIBLE 10 all_of) = [].
Proof.
  split; [|vm_compute; reflexivity]. exists (bs "211"), 0, (bs "227"), (bs " "), (bs "2003"). split; [reflexivity|]. do 2 (split; [split; [reflexivity|cbn; lia]|]). split; [reflexivity|]. split; [cbn; lia|]. split; [reflexivity|cbn; lia].
Qed.

(** The brackets of a match are paired and there is something in each of them. *)
Theorem C78_brackets : forall C A text region l t yield ms m p, FindNumbersWithLeniency C A text region l t yield = Ret (ms, m) -> In (Some p) ms -> paired (pm_raw p) /\ filled (pm_raw p).
Proof.
  intros C A text region l t yield ms m p F I. destruct (search_origin _ _ _ _ _ _ _ _ _ _ F I) as ((B & _) & _). exact (brackets_ok _ B).
Qed.
Print Assumptions C78_brackets.
Example C78_brackets_witness : brackets (bs "(650) 253 (0000") = [true; false; true] /\
  positions (FindNumbersWithLeniency shipped shipped_alt (bs "(650) 253 0000, 650) 253 0000, ((650)) 253 0000") (bs "US") POSSIBLE 10 all_of) = [Some (0, 14); Some (16, 29)].
Proof. vm_compute. split; reflexivity. Qed.
