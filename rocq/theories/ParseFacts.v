(** Proofs about the parser: it never panics on well-formed metadata, what it finds does not depend on the number it is
    stored in nor on whether raw input is kept. *)
From Verif Require Import Base BaseFacts Utf8 Utf8Facts Regex RegexSpec RegexFacts LangFacts Consts Types Normalize NormalizeSpec NormalizeFacts Validate Format Parse
  NumberSpec NumberFacts MetaSpec ValidateSpec ValidateFacts Container Shipped MetaFacts FormatSpec TextFacts FormatFacts FormatMore ParseSpec.

(** * The parser without a target *)
Definition extract_core (C : container) (number : bytes) (dm : option meta) : M (option ccsource * Z * bytes) :=
  match number with
  | [] => Ret (None, 0%Z, [])
  | _ =>
      let idd := match dm with Some _ => mbytes md_iprefix dm | None => bs "NonMatch" end in
      r <- maybeStripInternationalPrefixAndNormalize number idd ;;
      let '(full, src) := r in
      match src with
      | FROM_DEFAULT_COUNTRY =>
          match dm with
          | None => Ret (Some src, 0%Z, [])
          | Some _ =>
              let dcc := mcc dm in
              if has_prefix full (itoa dcc) then
                rule <- must_compile (anchored (get_d_pattern (mdesc md_general dm))) ;;
                r <- maybeStripNationalPrefixAndCarrierCode (skipn (len (itoa dcc)) full) dm ;;
                let '(potential, _, _) := r in
                v <- testNumberLength full dm UNKNOWN ;;
                if (negb (re_match rule full) && re_match rule potential) || vresult_eqb v TOO_LONG
                then Ret (Some FROM_NUMBER_WITHOUT_PLUS_SIGN, dcc, potential)
                else Ret (Some src, 0%Z, [])
              else Ret (Some src, 0%Z, [])
          end
      | _ =>
          if (len full <=? minLengthForNSN)%nat then Fail ErrTooShortAfterIDD
          else match extractCountryCode C full with
               | Some (cc, rest) => if Z.eqb cc 0 then Fail ErrInvalidCountryCode else Ret (Some src, cc, rest)
               | None => Fail ErrInvalidCountryCode
               end
      end
  end.

Definition finish_core (norm : bytes) (m : option meta) : M (bytes * bytes) :=
  if (len norm <? minLengthForNSN)%nat then Fail ErrTooShortNSN
  else
    r <- match m with
         | None => Ret (norm, [])
         | Some _ =>
             r <- maybeStripNationalPrefixAndCarrierCode norm m ;;
             let '(potential, carrier, _) := r in
             v <- testNumberLength potential m UNKNOWN ;;
             match v with
             | TOO_SHORT | IS_POSSIBLE_LOCAL_ONLY | INVALID_LENGTH => Ret (norm, [])
             | _ => Ret (potential, carrier)
             end
         end ;;
    let '(norm, carrier) := r in
    if (len norm <? minLengthForNSN)%nat then Fail ErrTooShortNSN
    else if (maxLengthForNSN <? len norm)%nat then Fail ErrNumTooLong
    else Ret (norm, carrier).

Definition code_core (C : container) (nationalNumber : bytes) (m : option meta) : M (option ccsource * Z * bytes) :=
  match extract_core C nationalNumber m with
  | Fail ErrInvalidCountryCode =>
      match re_find plusCharsPattern nationalNumber with
      | Some x =>
          r <- extract_core C (skipn (m_end x) nationalNumber) m ;;
          let '(src, cc, norm) := r in
          if Z.eqb cc 0 then Fail ErrInvalidCountryCode else Ret (src, cc, norm)
      | None => Fail ErrInvalidCountryCode
      end
  | r => r
  end.

Definition parse_core (C : container) (s region : bytes) (checkRegion : bool) : M parsed :=
  if is_empty s then Fail ErrNotANumber
  else if (maxInputStringLength <? len s)%nat then Fail ErrNumTooLong
  else
    nationalNumber <- buildNationalNumberForParsing s ;;
    if negb (isViablePhoneNumber nationalNumber) then Fail ErrNotANumber
    else if checkRegion && negb (checkRegionForParsing C nationalNumber region) then Fail ErrInvalidCountryCode
    else
      let '(nationalNumber, extension) := maybeStripExtension nationalNumber in
      let m := getMetadataForRegion C region in
      r <- code_core C nationalNumber m ;;
      let '(src, cc, norm) := r in
      if negb (Z.eqb cc 0) then
        let r := GetRegionCodeForCountryCode C cc in
        let m := if beq r region then m else getMetadataForRegionOrCallingCode C cc r in
        x <- finish_core norm m ;;
        Ret {| pr_cc := to_int32 cc; pr_nsn := fst x; pr_ext := extension; pr_src := src; pr_carrier := snd x |}
      else
        x <- finish_core (norm ++ normalize nationalNumber) m ;;
        Ret {| pr_cc := if is_empty region then 0%Z else to_int32 (mcc m); pr_nsn := fst x; pr_ext := extension;
               pr_src := if is_empty region then None else src; pr_carrier := snd x |}.

(** * Totality of the pieces on well-formed metadata *)
Definition opt_wf (m : option meta) : Prop := match m with Some x => wf_meta x | None => True end.
Lemma compiles_ret p : compiles p -> exists x, must_compile p = Ret x.
Proof. intros (x & E). exists x. unfold must_compile. rewrite E. reflexivity. Qed.
Lemma general_compiles m : wf_meta m -> compiles (anchored (get_d_pattern (mdesc md_general (Some m)))).
Proof. intros W. pose proof (wf_descs _ W) as D. rewrite Forall_forall in D. destruct (D (md_general m)) as (x & E & Cx & _); [unfold typed_descs; simpl; tauto|]. exact Cx. Qed.
Lemma intl_total number idd : compiles idd -> total (maybeStripInternationalPrefixAndNormalize number idd).
Proof.
  intros Ci. unfold maybeStripInternationalPrefixAndNormalize. destruct number as [|c number]; [apply total_ret|]. destruct (compiles_ret _ Ci) as (x & Ex).
  assert (T : total (idd0 <- must_compile idd ;; match parsePrefixAsIdd idd0 (normalize (c :: number)) with
     | Some rest => Ret (rest, FROM_NUMBER_WITH_IDD) | None => Ret (normalize (c :: number), FROM_DEFAULT_COUNTRY) end)).
  { rewrite Ex. cbn [bind]. destruct (parsePrefixAsIdd _ _); apply total_ret. }
  destruct (re_find plusCharsPattern _) as [[[|st] e cs]|]; auto. apply total_ret.
Qed.
Lemma national_total number m : wf_meta m -> exists r, maybeStripNationalPrefixAndCarrierCode number (Some m) = Ret r.
Proof.
  intros W. unfold maybeStripNationalPrefixAndCarrierCode. destruct (_ || _); [eexists; reflexivity|].
  destruct (compiles_ret _ (wf_np_parse _ W)) as (x & Ex). change (mbytes md_np_parse (Some m)) with (get_bytes (md_np_parse m)). rewrite Ex. cbn [bind].
  destruct (re_find x number) as [g|]; [|eexists; reflexivity]. destruct (compiles_ret _ (general_compiles _ W)) as (y & Ey). rewrite Ey. cbn [bind].
  repeat match goal with |- context [if ?b then _ else _] => destruct b end; eexists; reflexivity.
Qed.
Lemma test_total number m t : wf_meta m -> exists v, testNumberLength number (Some m) t = Ret v.
Proof. intros W. destruct (testNumberLength_spec m t number W) as (v & E & _). exists v. exact E. Qed.
Lemma idd_compiles dm : opt_wf dm -> compiles (match dm with Some _ => mbytes md_iprefix dm | None => bs "NonMatch" end).
Proof. destruct dm as [m|]; intros W; [apply (wf_iprefix _ W)|]. eexists. vm_compute. reflexivity. Qed.

(** * A run with a target is the run without, its result stored *)
Definition src_k (k : bool) (s : option ccsource) (p : phone) : phone := match s with Some x => if k then set_src p (Some x) else p | None => p end.
Lemma extract_runs C number dm k : opt_wf dm -> number <> [] ->
  match extract_core C number dm with
  | Panic => False
  | Fail e => exists s, forall p, maybeExtractCountryCode C number dm k p = Ret (src_k k s p, inl e)
  | Ret (s, cc, rest) => forall p, maybeExtractCountryCode C number dm k p = Ret (set_cc (src_k k s p) (Some (to_int32 cc)), inr (cc, rest))
  end.
Proof.
  intros W Hn. unfold extract_core, maybeExtractCountryCode. destruct number as [|c0 number]; [congruence|]. set (nb := c0 :: number). clearbody nb. cbv zeta.
  destruct (intl_total nb _ (idd_compiles _ W)) as ([full src] & ->). cbn [bind].
  destruct src.
  1-4: destruct (len full <=? minLengthForNSN)%nat; [eexists (Some _); intros p; cbn [src_k]; destruct k; reflexivity|];
      destruct (extractCountryCode C full) as [[cc rest]|]; [|eexists (Some _); intros p; cbn [src_k]; destruct k; reflexivity];
      destruct (Z.eqb cc 0); [eexists (Some _); intros p; cbn [src_k]; destruct k; reflexivity|intros p; cbn [src_k]; destruct k; reflexivity].
  destruct dm as [m|]; [|intros p; cbn [src_k]; destruct k; reflexivity]. destruct (has_prefix _ _); [|intros p; cbn [src_k]; destruct k; reflexivity].
  destruct (compiles_ret _ (general_compiles _ W)) as (rule & ->). cbn [bind].
  destruct (national_total (skipn (len (itoa (mcc (Some m)))) full) m W) as ([[pot car] b] & ->). cbn [bind].
  destruct (test_total full m UNKNOWN W) as (v & ->). cbn [bind]. destruct (_ || _); intros p; cbn [src_k]; destruct k; reflexivity.
Qed.

Lemma finish_runs norm m k : opt_wf m ->
  match finish_core norm m with
  | Panic => False
  | Fail e => forall p, exists p', finish_parse norm m k p = Ret (p', Some e)
  | Ret (d, car) => forall p, finish_parse norm m k p =
      Ret (set_nn (setItalianLeadingZerosForPhoneNumber d (if k && negb (is_empty car) then set_carrier p (Some car) else p)) (Some (parse_uint_val d)), None)
  end.
Proof.
  intros W. unfold finish_core, finish_parse. destruct (len norm <? minLengthForNSN)%nat eqn:L; [eexists; reflexivity|].
  assert (Z : k && negb (is_empty (@nil N)) = false) by (apply andb_false_r).
  destruct m as [m|].
  - destruct (national_total norm m W) as ([[pot car] b] & ->). cbn [bind]. destruct (test_total pot m UNKNOWN W) as (v & ->). cbn [bind].
    destruct v; cbn [bind];
     match goal with |- context [(len ?d <? minLengthForNSN)%nat] => 
      (destruct (len d <? minLengthForNSN)%nat; [intros; eexists; reflexivity|]; destruct (maxLengthForNSN <? len d)%nat; [intros; eexists; reflexivity|]; intros p; rewrite ?Z; reflexivity) end.
  - cbn [bind]. destruct (len norm <? minLengthForNSN)%nat; [intros; eexists; reflexivity|]. destruct (maxLengthForNSN <? len norm)%nat; [intros; eexists; reflexivity|].
    intros p. rewrite Z. reflexivity.
Qed.

Lemma opt_wf_region C r : wf_container C -> opt_wf (getMetadataForRegion C r).
Proof. intros W. destruct (getMetadataForRegion C r) eqn:E; [|exact I]. exact (region_meta_wf _ _ _ W E). Qed.
Lemma opt_wf_any C cc r : wf_container C -> opt_wf (getMetadataForRegionOrCallingCode C cc r).
Proof. intros W. destruct (getMetadataForRegionOrCallingCode C cc r) eqn:E; [|exact I]. exact (any_meta_wf _ _ _ _ W E). Qed.

Lemma slice_ret s a b : (a <= b)%nat -> (b <= len s)%nat -> slice s a b = Ret (firstn (b - a) (skipn a s)).
Proof. intros A B. unfold slice. replace (a <=? b)%nat with true by (symmetry; apply Nat.leb_le; exact A). replace (b <=? len s)%nat with true by (symmetry; apply Nat.leb_le; exact B). reflexivity. Qed.
Lemma tel_before s i j : index_of s rfc3966PhoneContext = Some i -> index_of s rfc3966Prefix = Some j -> (j < i)%nat -> (j + len rfc3966Prefix <= i)%nat.
Proof.
  intros Hi Hj L. apply index_of_some in Hi as (t & Ei & Li). apply index_of_some in Hj as (u & Ej & Lj).
  destruct (Nat.le_gt_cases (j + len rfc3966Prefix) i) as [|G]; [assumption|exfalso].
  assert (N1 : nth_error s i = Some 59). { rewrite Ei, nth_error_app2; rewrite firstn_length; unfold len in *; [|lia]. replace (i - _)%nat with 0%nat by lia. reflexivity. }
  assert (N2 : nth_error s i = nth_error rfc3966Prefix (i - j)).
  { rewrite Ej, nth_error_app2; rewrite firstn_length; unfold len in *; [|lia]. replace (i - Nat.min j _)%nat with (i - j)%nat by lia. apply nth_error_app1. lia. }
  rewrite N1 in N2. unfold rfc3966Prefix, len in G. simpl in G. destruct (i - j)%nat as [|[|[|[|k]]]] eqn:K; try discriminate N2. lia.
Qed.
(** What buildNationalNumberForParsing (phonenumberutil.go:2890-2945) returns, without the slicing. *)
Definition cut_isub (t : bytes) : bytes := match index_of t rfc3966IsdnSubaddress with Some (S _ as i) => firstn i t | _ => t end.
Definition local_part (s : bytes) (i : nat) : bytes :=
  match index_of s rfc3966Prefix with
  | Some j => if (j <? i)%nat then firstn (i - (j + len rfc3966Prefix)) (skipn (j + len rfc3966Prefix) s) else firstn i s
  | None => firstn i s
  end.
Definition text_of (s : bytes) : M bytes :=
  match index_of s rfc3966PhoneContext with
  | None => Ret (cut_isub (extractPossibleNumber s))
  | Some i =>
      let ctx := extractPhoneContext s (Some i) in
      if negb (isPhoneContextValid ctx) then Fail ErrNotANumber
      else if (i =? 0)%nat then Ret (cut_isub (extractPossibleNumber s))
      else Ret (cut_isub ((if has_prefix ctx [43] then ctx else []) ++ local_part s i))
  end.
Lemma build_eq s : buildNationalNumberForParsing s = text_of s.
Proof.
  assert (K : forall t, match index_of t rfc3966IsdnSubaddress with Some (S _ as i) => Ret (firstn i t) | _ => Ret t end = Ret (cut_isub t)).
  { intros t. unfold cut_isub. destruct (index_of t rfc3966IsdnSubaddress) as [[|n]|]; reflexivity. }
  unfold buildNationalNumberForParsing, text_of. destruct (index_of s rfc3966PhoneContext) as [i|] eqn:Ei; cbn [is_some andb].
  2: { cbn [bind]. apply K. }
  destruct (isPhoneContextValid (extractPhoneContext s (Some i))) eqn:V; cbn [negb]; [|reflexivity].
  destruct i as [|i]; [apply K|]. replace (S i =? 0)%nat with false by reflexivity. set (ii := S i) in *. clearbody ii. clear i.
  set (ctx := extractPhoneContext s (Some ii)) in *. clearbody ctx. destruct ctx as [|c ctx]; [discriminate V|]. cbn [hd_error or_panic bind has_prefix].
  pose proof (index_of_some _ _ _ Ei) as (_ & _ & Li). unfold local_part. replace (has_prefix ctx []) with true by (destruct ctx; reflexivity).
  destruct (index_of s rfc3966Prefix) as [j|] eqn:Ej.
  - destruct (j <? ii)%nat eqn:L.
    + apply Nat.ltb_lt in L. pose proof (tel_before _ _ _ Ei Ej L). rewrite slice_ret by lia. cbn [bind]. rewrite K. rewrite andb_true_r. rewrite N.eqb_sym. reflexivity.
    + rewrite slice_ret by lia. cbn [bind]. rewrite K. rewrite andb_true_r, Nat.sub_0_r, N.eqb_sym. reflexivity.
  - rewrite slice_ret by lia. cbn [bind]. rewrite K. rewrite andb_true_r, Nat.sub_0_r, N.eqb_sym. reflexivity.
Qed.
Lemma build_no_panic s : buildNationalNumberForParsing s <> Panic.
Proof. rewrite build_eq. unfold text_of. destruct (index_of _ _); [|discriminate]. destruct (negb _); [discriminate|]. destruct (_ =? _)%nat; discriminate. Qed.

Lemma extract_src C number dm s cc rest : extract_core C number dm = Ret (s, cc, rest) -> number <> [] -> s <> None.
Proof.
  unfold extract_core. intros H Hn. destruct number as [|c0 number]; [congruence|]. cbv zeta in H.
  destruct (maybeStripInternationalPrefixAndNormalize _ _) as [[full src]| |]; cbn [bind] in H; try discriminate.
  destruct src; try (destruct (_ <=? _)%nat; [discriminate|]; destruct (extractCountryCode C full) as [[? ?]|]; [|discriminate]; destruct (_ =? _)%Z; [discriminate|]; injection H as <- _ _; discriminate).
  destruct dm as [m|]; [|injection H as <- _ _; discriminate]. destruct (has_prefix _ _); [|injection H as <- _ _; discriminate].
  destruct (must_compile _); cbn [bind] in H; try discriminate. destruct (maybeStripNationalPrefixAndCarrierCode _ _) as [[[? ?] ?]| |]; cbn [bind] in H; try discriminate.
  destruct (testNumberLength _ _ _); cbn [bind] in H; try discriminate. destruct (_ || _); injection H as <- _ _; discriminate.
Qed.
Lemma code_runs C number dm k : opt_wf dm ->
  match code_core C number dm with
  | Panic => False
  | Fail e => forall p, exists p', 
      (r <- maybeExtractCountryCode C number dm k p ;;
       let '(p, r) := r in
       match r with
       | inr x => Ret (p, inr x)
       | inl ErrInvalidCountryCode =>
           match re_find plusCharsPattern number with
           | Some x =>
               r <- maybeExtractCountryCode C (skipn (m_end x) number) dm k p ;;
               let '(p, r) := r in
               match r with
               | inl e => Ret (p, inl e)
               | inr (cc, norm) => if Z.eqb cc 0 then Ret (p, inl ErrInvalidCountryCode) else Ret (p, inr (cc, norm))
               end
           | None => Ret (p, inl ErrInvalidCountryCode)
           end
       | inl e => Ret (p, inl e)
       end) = Ret (p', inl e)
  | Ret (s, cc, norm) => number <> [] -> forall p,
      (r <- maybeExtractCountryCode C number dm k p ;;
       let '(p, r) := r in
       match r with
       | inr x => Ret (p, inr x)
       | inl ErrInvalidCountryCode =>
           match re_find plusCharsPattern number with
           | Some x =>
               r <- maybeExtractCountryCode C (skipn (m_end x) number) dm k p ;;
               let '(p, r) := r in
               match r with
               | inl e => Ret (p, inl e)
               | inr (cc, norm) => if Z.eqb cc 0 then Ret (p, inl ErrInvalidCountryCode) else Ret (p, inr (cc, norm))
               end
           | None => Ret (p, inl ErrInvalidCountryCode)
           end
       | inl e => Ret (p, inl e)
       end) = Ret (set_cc (src_k k s p) (Some (to_int32 cc)), inr (cc, norm))
  end.
Proof.
  intros W. unfold code_core. destruct number as [|c0 number]; [cbn [extract_core]; congruence|]. set (nb := c0 :: number).
  assert (Hn : nb <> []) by discriminate. clearbody nb. pose proof (extract_runs C nb dm k W Hn) as X.
  destruct (extract_core C nb dm) as [[[s cc] rest]|e|]; [|destruct X as (s & X)|destruct X].
  - intros _ p. rewrite X. cbn [bind]. reflexivity.
  - destruct e; try (intros p; rewrite X; cbn [bind]; eexists; reflexivity).
    destruct (re_find plusCharsPattern nb) as [x|]; [|intros p; rewrite X; cbn [bind]; eexists; reflexivity].
    destruct (skipn (m_end x) nb) as [|c1 t1] eqn:Et.
    + cbn [extract_core bind]. replace (0 =? 0)%Z with true by reflexivity. intros p; rewrite X; cbn [bind]. cbn [maybeExtractCountryCode bind]. eexists; reflexivity.
    + assert (Hn2 : c1 :: t1 <> []) by discriminate. pose proof (extract_runs C (c1 :: t1) dm k W Hn2) as X2.
      destruct (extract_core C (c1 :: t1) dm) as [[[s2 cc] rest]|e|] eqn:Ex2; [|destruct X2 as (s2 & X2)|destruct X2].
      * cbn [bind]. destruct (cc =? 0)%Z eqn:Z0; [intros p|intros _ p]; rewrite X; cbn [bind]; rewrite X2; cbn [bind]; rewrite Z0; [eexists; reflexivity|].
        assert (s2 <> None) by (eapply extract_src; eauto). do 3 f_equal. unfold src_k. destruct s2 as [s2|]; [|congruence]. destruct s, k; reflexivity.
      * cbn [bind]. intros p. rewrite X. cbn [bind]. rewrite X2. cbn [bind]. eexists; reflexivity.
Qed.

Lemma code_src C number dm s cc rest : code_core C number dm = Ret (s, cc, rest) -> number <> [] -> s <> None.
Proof.
  unfold code_core. intros H Hn. destruct (extract_core C number dm) as [[[s1 cc1] r1]|e|] eqn:E1; [inv H; eapply extract_src; eauto| |discriminate].
  destruct e; try discriminate. destruct (re_find plusCharsPattern number) as [x|]; [|discriminate].
  destruct (skipn (m_end x) number) as [|c1 t1].
  - cbn [extract_core bind] in H. discriminate H.
  - destruct (extract_core C (c1 :: t1) dm) as [[[s2 cc2] r2]|e|] eqn:E2; cbn [bind] in H; try discriminate. destruct (cc2 =? 0)%Z; [discriminate|]. inv H. eapply extract_src; eauto. discriminate.
Qed.
Theorem parse_runs C s region k ck : wf_container C ->
  match parse_core C s region ck with
  | Panic => False
  | Fail e => forall p, exists p', parseHelper C s region k ck p = Ret (p', Some e)
  | Ret x => forall p, parseHelper C s region k ck p = Ret (store k s x p, None)
  end.
Proof.
  intros W. unfold parse_core, parseHelper. destruct (is_empty s); [eexists; reflexivity|]. destruct (_ <? len s)%nat; [eexists; reflexivity|].
  pose proof (build_no_panic s) as NP. destruct (buildNationalNumberForParsing s) as [t|e|]; cbn [bind]; [|eexists; reflexivity|congruence]. clear NP.
  destruct (isViablePhoneNumber t) eqn:V; cbn [negb]; [|eexists; reflexivity]. destruct (ck && _); [eexists; reflexivity|].
  destruct (maybeStripExtension t) as [nn ext] eqn:Ee.
  assert (Hnn : nn <> []).
  { intros ->. unfold maybeStripExtension in Ee. destruct (re_find extnPattern t) as [x|]; [|inv Ee; discriminate V].
    destruct (isViablePhoneNumber (firstn _ t)) eqn:V2; [|inv Ee; discriminate V]. destruct (filter _ _); inv Ee; [discriminate V|]. match goal with H : firstn _ _ = [] |- _ => rewrite H in V2 end. discriminate V2. }
  pose proof (opt_wf_region C region W) as Wm. set (dm := getMetadataForRegion C region) in *. clearbody dm.
  pose proof (code_runs C nn dm k Wm) as X. destruct (code_core C nn dm) as [[[src cc] norm]|e|] eqn:Ecore; [|intros p; cbn [bind]|destruct X]; cbn [bind].
  2: { cbv zeta. destruct (X (let p := if k then set_raw p (Some s) else p in if is_empty ext then p else set_ext p (Some ext))) as (p' & X').
       match type of X' with bind ?m ?f = _ => destruct m as [[p1 r1]|e1|] eqn:E1; cbn [bind] in X'; [|discriminate X'|discriminate X'] end.
       cbn [bind]. rewrite X'. cbn [bind]. eexists. reflexivity. }
  specialize (X Hnn).
  assert (H : forall p, exists p1 r1, maybeExtractCountryCode C nn dm k (if is_empty ext then if k then set_raw p (Some s) else p else set_ext (if k then set_raw p (Some s) else p) (Some ext)) = Ret (p1, r1) /\
     match r1 with
       | inr x => Ret (p1, inr x)
       | inl ErrInvalidCountryCode =>
           match re_find plusCharsPattern nn with
           | Some x =>
               r <- maybeExtractCountryCode C (skipn (m_end x) nn) dm k p1 ;;
               let '(p, r) := r in
               match r with
               | inl e => Ret (p, inl e)
               | inr (cc, norm) => if Z.eqb cc 0 then Ret (p, inl ErrInvalidCountryCode) else Ret (p, inr (cc, norm))
               end
           | None => Ret (p1, inl ErrInvalidCountryCode)
           end
       | inl e => Ret (p1, inl e)
       end = Ret (set_cc (src_k k src (if is_empty ext then if k then set_raw p (Some s) else p else set_ext (if k then set_raw p (Some s) else p) (Some ext))) (Some (to_int32 cc)), inr (cc, norm))).
  { intros p. specialize (X (if is_empty ext then if k then set_raw p (Some s) else p else set_ext (if k then set_raw p (Some s) else p) (Some ext))).
    match type of X with bind ?m ?f = _ => destruct m as [[p1 r1]|e1|]; cbn [bind] in X; [|discriminate X|discriminate X] end. eauto. }
  clear X. cbv zeta.
  assert (Hs : src <> None) by (eapply code_src; eauto).
  destruct (cc =? 0)%Z eqn:Z0; cbn [negb].
  - pose proof (finish_runs (norm ++ normalize nn) dm k Wm) as F. destruct (finish_core (norm ++ normalize nn) dm) as [[d car]|e|]; [|intros p|destruct F]; cbn [bind].
    + intros p. destruct (H p) as (p1 & r1 & E1 & E2). rewrite E1. cbn [bind]. rewrite E2. cbn [bind]. rewrite Z0. cbn [negb]. rewrite F. do 4 f_equal.
      unfold store. cbn [pr_cc pr_nsn pr_ext pr_src pr_carrier fst snd]. destruct src as [src|]; [|congruence]. unfold src_k.
      apply Z.eqb_eq in Z0. subst cc. f_equal. f_equal. clear. destruct k, (is_empty ext), (is_empty region), (is_empty car); reflexivity.
    + destruct (H p) as (p1 & r1 & E1 & E2). rewrite E1. cbn [bind]. rewrite E2. cbn [bind]. rewrite Z0. cbn [negb]. apply F.
  - match goal with |- context [finish_core norm ?m] => assert (Wm' : opt_wf m) by (destruct (beq _ _); auto; apply opt_wf_any; auto);
      pose proof (finish_runs norm m k Wm') as F; destruct (finish_core norm m) as [[d car]|e|]; [| |destruct F] end; cbn [bind].
    + intros p. destruct (H p) as (p1 & r1 & E1 & E2). rewrite E1. cbn [bind]. rewrite E2. cbn [bind]. rewrite Z0. cbn [negb]. rewrite F. do 4 f_equal.
      unfold store. cbn [pr_cc pr_nsn pr_ext pr_src pr_carrier fst snd]. destruct src as [src|]; [|congruence]. unfold src_k.
      clear. destruct k, (is_empty ext), (is_empty car); reflexivity.
    + intros p. destruct (H p) as (p1 & r1 & E1 & E2). rewrite E1. cbn [bind]. rewrite E2. cbn [bind]. rewrite Z0. cbn [negb]. apply F.
Qed.
