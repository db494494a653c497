(** Model of phonenumbermatcher.go, phonenumbermatch.go, alternateformats.go, Leniency (enums.go:91-158) and FindNumbers
    (phonenumberutil.go:2664-2692): finding phone numbers in text. No proofs here.
    Not modelled: PhoneNumberMatch.String (phonenumbermatch.go:39-41), a debugging rendering; the lazy sync.Once around the
    alternate formats (alternateformats.go:19-22, 46), whose decoded contents are the argument [A] below. *)
From Verif Require Import Base UnicodeTables Utf8 Regex Consts Types Normalize Validate Format Parse.

(** ** Alternate formats *)

(** alternateformats.go:21, 37-39. The map filled by the loop over the collection: a later entry for the same calling code
    replaces an earlier one, so lookups go through the reversed list. *)
Definition alt_map := list (Z * meta).
Definition alt_map_of (coll : list meta) : alt_map := rev (map (fun m => (mcc (Some m), m)) coll).

(** alternateformats.go:45-48 *)
Definition getAlternateFormats (A : alt_map) (cc : Z) : option meta := assocz cc A.

(** ** Matches *)

(** phonenumbermatch.go:14-18. *)
Record pmatch := { pm_start : nat; pm_raw : bytes; pm_number : phone }.
(** phonenumbermatch.go:33 *)
Definition pm_end (m : pmatch) : nat := (pm_start m + len (pm_raw m))%nat.

(** ** Leniency: enums.go:91-115. Leniency is an int, so any value can be passed. *)
Definition leniency := Z.
Definition POSSIBLE : leniency := 0%Z.
Definition VALID : leniency := 1%Z.
Definition STRICT_GROUPING : leniency := 2%Z.
Definition EXACT_GROUPING : leniency := 3%Z.

(** ** Helpers of the matcher *)

(** phonenumbermatcher.go:188-193 *)
Definition trimAfterFirstMatch (x : re) (s : bytes) : bytes :=
  match re_find x s with Some m => sub s 0 (m_start m) | None => s end.

(** phonenumbermatcher.go:198-207 *)
Definition isLatinLetter (c : N) : bool :=
  (is_L c || in_table tab_Mn c) && (in_table tab_Latin c || in_rng 768 879 c).

(** phonenumbermatcher.go:209-212 *)
Definition isInvalidPunctuationSymbol (c : N) : bool := (c =? 37) || in_table tab_Sc c.

(** phonenumbermatcher.go:315-326 *)
Definition getNationalNumberGroups (C : container) (n : phone) : M (list bytes) :=
  rfc <- Format C n RFC3966 ;;
  let e := match index_byte rfc 59 with Some i => i | None => len rfc end in
  let b := match index_byte rfc 45 with Some i => S i | None => 0%nat end in
  s <- slice rfc b e ;;
  Ret (split_byte s 45).

(** phonenumbermatcher.go:330-333 *)
Definition getNationalNumberGroupsWithPattern (n : phone) (fp : nfmt) : M (list bytes) :=
  s <- formatNsnUsingPattern (GetNationalSignificantNumber n) fp RFC3966 ;;
  Ret (split_byte s 45).

(** phonenumbermatcher.go:351-367: the loop over the alternate formats. *)
Fixpoint try_alternates (checker : phone -> bytes -> list bytes -> M bool) (n : phone) (nc nsn : bytes) (l : list nfmt)
  : M bool :=
  match l with
  | [] => Ret false
  | f :: rest =>
      skip <- match nf_leading f with
              | [] => Ret false
              | p :: _ =>
                  x <- must_compile p ;;
                  match re_find x nsn with
                  | Some m => Ret (negb (m_start m =? 0)%nat)
                  | None => Ret true
                  end
              end ;;
      if skip then try_alternates checker n nc nsn rest
      else
        g <- getNationalNumberGroupsWithPattern n f ;;
        ok <- checker n nc g ;;
        if ok then Ret true else try_alternates checker n nc nsn rest
  end.

(** phonenumbermatcher.go:338-368 *)
Definition checkNumberGroupingIsValid (C : container) (A : alt_map) (n : phone) (candidate : bytes)
    (checker : phone -> bytes -> list bytes -> M bool) : M bool :=
  let nc := normalizeDigits candidate true in
  g <- getNationalNumberGroups C n ;;
  ok <- checker n nc g ;;
  if ok then Ret true
  else match getAlternateFormats A (get_cc n) with
       | None => Ret false
       | Some m => try_alternates checker n nc (GetNationalSignificantNumber n) (md_nf m)
       end.

(** phonenumbermatcher.go:386-412: one pass over the formatted groups from [from]; [first] is i == 0. The left result is
    an early return, the right one the final fromIndex. *)
Fixpoint groups_in_order (C : container) (n : phone) (nc : bytes) (groups : list bytes) (first : bool) (from : nat)
  : M (bool + nat) :=
  match groups with
  | [] => Ret (inr from)
  | g :: rest =>
      tail <- slice_from nc from ;;
      match index_of tail g with
      | None => Ret (inl false)
      | Some idx =>
          let from' := (from + idx + len g)%nat in
          if first && (from' <? len nc)%nat then
            let region := GetRegionCodeForCountryCode C (get_cc n) in
            tail' <- slice_from nc from' ;;
            let next := match decode_rune tail' with Some (c, _) => c | None => rune_error end in
            if negb (is_empty (GetNddPrefixForRegion C region true)) && is_Nd next then
              t <- slice_from nc (from' - len g) ;;
              Ret (inl (has_prefix t (GetNationalSignificantNumber n)))
            else groups_in_order C n nc rest false from'
          else groups_in_order C n nc rest false from'
      end
  end.

(** phonenumbermatcher.go:373-416. strings.Index gives -1 when the calling code does not occur. *)
Definition allNumberGroupsRemainGrouped (C : container) (n : phone) (nc : bytes) (groups : list bytes) : M bool :=
  let from := match get_src n with
              | FROM_DEFAULT_COUNTRY => 0%nat
              | _ => let cc := itoa (get_cc n) in
                     match index_of nc cc with Some i => (i + len cc)%nat | None => (len cc - 1)%nat end
              end in
  r <- groups_in_order C n nc groups true from ;;
  match r with
  | inl b => Ret b
  | inr from' => tail <- slice_from nc from' ;; Ret (contains tail (get_ext n))
  end.

(** phonenumbermatcher.go:458-468 *)
Fixpoint drop_trailing_empty (l : list bytes) : list bytes :=
  match l with
  | [] => []
  | g :: rest => match drop_trailing_empty rest with
                 | [] => if is_empty g then [] else [g]
                 | r => g :: r
                 end
  end.
Definition splitNonDigits (s : bytes) : list bytes :=
  match drop_trailing_empty (re_split nonDigitsPattern s) with [] => [[]] | l => l end.

(** phonenumbermatcher.go:443-452: both lists reversed, the candidate's from its current index down to 0. The last formatted
    group left is formattedNumberGroups[0]. An empty list of formatted groups panics at line 452. *)
Fixpoint groups_from_end (cand fmt : list bytes) : M bool :=
  match fmt with
  | [] => match cand with [] => Ret false | _ => Panic end
  | [f0] => match cand with [] => Ret false | c :: _ => Ret (has_suffix c f0) end
  | f :: fmt' =>
      match cand with
      | [] => Ret false
      | c :: cand' => if beq c f then groups_from_end cand' fmt' else Ret false
      end
  end.

(** phonenumbermatcher.go:421-453. With one candidate group the index may be -1; line 437 returns before using it. *)
Definition allNumberGroupsAreExactlyPresent (n : phone) (nc : bytes) (groups : list bytes) : M bool :=
  let cg := splitNonDigits nc in
  let up := if is_empty (get_ext n) then rev cg else tl (rev cg) in
  match cg with
  | [_] => Ret true
  | _ =>
      match up with
      | [] => Panic
      | c :: _ => if contains c (GetNationalSignificantNumber n) then Ret true
                  else groups_from_end up (rev groups)
      end
  end.

(** phonenumbermatcher.go:472-495 *)
Definition containsMoreThanOneSlashInNationalNumber (n : phone) (candidate : bytes) : bool :=
  match index_byte candidate 47 with
  | None => false
  | Some i =>
      let rest := skipn (S i) candidate in
      match index_byte rest 47 with
      | None => false
      | Some j =>
          let has_cc := match get_src n with
                        | FROM_NUMBER_WITH_PLUS_SIGN | FROM_NUMBER_WITHOUT_PLUS_SIGN => true
                        | _ => false
                        end in
          if has_cc && beq (NormalizeDigitsOnly (firstn i candidate)) (itoa (get_cc n))
          then contains (skipn (S j) rest) [47]
          else true
      end
  end.

(** 'x' or 'X' *)
Definition is_x (c : N) : bool := (c =? 120) || (c =? 88).

(** phonenumbermatcher.go:499-525. The loop runs over the suffixes of candidate; the last byte is never examined as the
    first of a pair. *)
Fixpoint containsOnlyValidXChars (C : container) (n : phone) (s : bytes) : M bool :=
  match s with
  | c :: ((c2 :: r) as t) =>
      if is_x c then
        if is_x c2 then
          v <- IsNumberMatchWithOneNumber C n t ;;
          match v with
          | NSN_MATCH => containsOnlyValidXChars C n r
          | _ => Ret false
          end
        else if beq (NormalizeDigitsOnly s) (get_ext n) then containsOnlyValidXChars C n t
        else Ret false
      else containsOnlyValidXChars C n t
  | _ => Ret true
  end.

(** phonenumbermatcher.go:529-563 *)
Definition isNationalPrefixPresentIfRequired (C : container) (n : phone) : M bool :=
  match get_src n with
  | FROM_DEFAULT_COUNTRY =>
      let m := getMetadataForRegion C (GetRegionCodeForCountryCode C (get_cc n)) in
      match m with
      | None => Ret true
      | Some md =>
          fr <- chooseFormattingPatternForNumber (md_nf md) (GetNationalSignificantNumber n) ;;
          match fr with
          | None => Ret true
          | Some f =>
              if is_empty (get_npfr f) then Ret true
              else if get_npopt f then Ret true
              else if formattingRuleHasFirstGroupOnly (get_npfr f) then Ret true
              else
                r <- maybeStripNationalPrefixAndCarrierCode (NormalizeDigitsOnly (get_raw n)) m ;;
                let '(_, _, b) := r in Ret b
          end
      end
  | _ => Ret true
  end.

(** enums.go:117-158 *)
Definition Verify (C : container) (A : alt_map) (l : leniency) (n : phone) (candidate : bytes) : M bool :=
  let strict checker :=
    v <- IsValidNumber C n ;;
    if negb v then Ret false else
    x <- containsOnlyValidXChars C n candidate ;;
    if negb x then Ret false else
    if containsMoreThanOneSlashInNationalNumber n candidate then Ret false else
    p <- isNationalPrefixPresentIfRequired C n ;;
    if negb p then Ret false else
    checkNumberGroupingIsValid C A n candidate checker in
  if (l =? POSSIBLE)%Z then IsPossibleNumber C n
  else if (l =? VALID)%Z then
    v <- IsValidNumber C n ;;
    if negb v then Ret false else
    x <- containsOnlyValidXChars C n candidate ;;
    if negb x then Ret false else
    isNationalPrefixPresentIfRequired C n
  else if (l =? STRICT_GROUPING)%Z then strict (allNumberGroupsRemainGrouped C)
  else if (l =? EXACT_GROUPING)%Z then strict allNumberGroupsAreExactlyPresent
  else Ret false.

(** ** The matcher *)

(** The fields of phonenumbermatcher.go:130-144 that never change. *)
Record mcfg := { mc_text : bytes; mc_region : bytes; mc_len : leniency }.

(** maxTries, and how many substrings have been handed to parseAndVerify so far. The second field is not in the program: it
    is written but never read, and lets the theorems speak about the work done. *)
Record work := { w_tries : Z; w_calls : nat }.
Definition dec_tries (w : work) : work := {| w_tries := (w_tries w - 1)%Z; w_calls := w_calls w |}.
Definition called (w : work) : work := {| w_tries := w_tries w; w_calls := S (w_calls w) |}.

(** phonenumbermatcher.go:277-293: the check of the neighbouring characters; true when the candidate is to be skipped. *)
Definition bad_neighbours (text candidate : bytes) (offset : nat) : M bool :=
  before <-
    (if (0 <? offset)%nat && negb (is_some (re_find leadClassPattern candidate)) then
       t <- slice_to text offset ;;
       let c := decode_last_rune t in
       Ret (isInvalidPunctuationSymbol c || isLatinLetter c)
     else Ret false) ;;
  if before then Ret true
  else
    let last := (offset + len candidate)%nat in
    if (last <? len text)%nat then
      t <- slice_from text last ;;
      let c := match decode_rune t with Some (c, _) => c | None => rune_error end in
      Ret (isInvalidPunctuationSymbol c || isLatinLetter c)
    else Ret false.

(** phonenumbermatcher.go:302-306 *)
Definition clear_parse_details (n : phone) : phone := set_carrier (set_raw (set_src n None) None) None.

(** phonenumbermatcher.go:268-310 *)
Definition parseAndVerify (C : container) (A : alt_map) (cfg : mcfg) (candidate : bytes) (offset : nat)
  : M (option pmatch) :=
  if negb (re_match matchingBrackets candidate) || re_match pubPages candidate then Ret None
  else
    bad <- (if (VALID <=? mc_len cfg)%Z then bad_neighbours (mc_text cfg) candidate offset else Ret false) ;;
    if bad then Ret None
    else
      r <- ParseAndKeepRawInputToNumber C candidate (mc_region cfg) phone0 ;;
      match r with
      | (_, Some _) => Ret None
      | (number, None) =>
          ok <- Verify C A (mc_len cfg) number candidate ;;
          if ok then Ret (Some {| pm_start := offset; pm_raw := candidate; pm_number := clear_parse_details number |})
          else Ret None
      end.

(** phonenumbermatcher.go:243-261: the loop over the occurrences of one inner pattern. *)
Fixpoint inner_loop (C : container) (A : alt_map) (cfg : mcfg) (candidate : bytes) (offset : nat) (gs : list mres)
    (first : bool) (w : work) : M (option pmatch * work) :=
  match gs with
  | [] => Ret (None, w)
  | g :: rest =>
      if (w_tries w <=? 0)%Z then Ret (None, w)
      else
        r <- (if first then
                p <- parseAndVerify C A cfg (trimAfterFirstMatch unwantedEndCharPattern (sub candidate 0 (m_start g))) offset ;;
                Ret (match p with Some _ => (p, called w) | None => (None, dec_tries (called w)) end)
              else Ret (None, w)) ;;
        match r with
        | (Some p, w) => Ret (Some p, w)
        | (None, w) =>
            ij <- or_panic (group g 1) ;;
            let '(i, j) := ij in
            p <- parseAndVerify C A cfg (trimAfterFirstMatch unwantedEndCharPattern (sub candidate i j)) (offset + i) ;;
            match p with
            | Some p => Ret (Some p, called w)
            | None => inner_loop C A cfg candidate offset rest false (dec_tries (called w))
            end
        end
  end.

(** phonenumbermatcher.go:240-264 *)
Fixpoint extractInnerMatch (C : container) (A : alt_map) (cfg : mcfg) (candidate : bytes) (offset : nat) (pats : list re)
    (w : work) : M (option pmatch * work) :=
  match pats with
  | [] => Ret (None, w)
  | x :: rest =>
      r <- inner_loop C A cfg candidate offset (re_find_all x candidate) true w ;;
      match r with
      | (Some p, w) => Ret (Some p, w)
      | (None, w) => extractInnerMatch C A cfg candidate offset rest w
      end
  end.

(** phonenumbermatcher.go:222-227 *)
Definition is_timestamp (text candidate : bytes) (offset : nat) : M bool :=
  if re_match timeStamps candidate then
    following <- slice_from text (offset + len candidate) ;;
    match re_find timeStampsSuffix following with
    | Some m => Ret (m_start m =? 0)%nat
    | None => Ret false
    end
  else Ret false.

(** phonenumbermatcher.go:215-236 *)
Definition extractMatch (C : container) (A : alt_map) (cfg : mcfg) (candidate : bytes) (offset : nat) (w : work)
  : M (option pmatch * work) :=
  if re_match slashSeparatedDates candidate then Ret (None, w)
  else
    ts <- is_timestamp (mc_text cfg) candidate offset ;;
    if ts then Ret (None, w)
    else
      p <- parseAndVerify C A cfg candidate offset ;;
      match p with
      | Some p => Ret (Some p, called w)
      | None => extractInnerMatch C A cfg candidate offset innerMatches (called w)
      end.

(** phonenumbermatcher.go:164-184. Nothing in the text of the program bounds the loop when maxTries is huge; the fuel does
    here, and running out of it counts as a panic, so the theorems have to show that every round makes progress. *)
Fixpoint find (fuel : nat) (C : container) (A : alt_map) (cfg : mcfg) (index : nat) (w : work) : M (option pmatch * work) :=
  match fuel with
  | O => Panic
  | S fuel' =>
      if (0 <? w_tries w)%Z then
        rest <- slice_from (mc_text cfg) index ;;
        match re_find phoneNumberMatcherPattern rest with
        | None => Ret (None, w)
        | Some loc =>
            let start := (index + m_start loc)%nat in
            candidate <- slice (mc_text cfg) start (index + m_end loc) ;;
            let candidate := trimAfterFirstMatch secondNumberStartPattern candidate in
            r <- extractMatch C A cfg candidate start w ;;
            match r with
            | (Some p, w) => Ret (Some p, w)
            | (None, w) => find fuel' C A cfg (start + len candidate) (dec_tries w)
            end
        end
      else Ret (None, w)
  end.

(** phonenumbermatcher.go:118-144: the iteration state. *)
Inductive mstate := NotReady | Ready | Done.
Record matcher := { mx_cfg : mcfg; mx_work : work; mx_state : mstate; mx_last : option pmatch; mx_index : nat }.

(** phonenumbermatcher.go:149-160 *)
Definition newPhoneNumberMatcher (text region : bytes) (l : leniency) (maxTries : Z) : matcher :=
  {| mx_cfg := {| mc_text := text; mc_region := region; mc_len := l |};
     mx_work := {| w_tries := if (maxTries <? 0)%Z then 0%Z else maxTries; w_calls := 0 |};
     mx_state := NotReady; mx_last := None; mx_index := 0 |}.

(** phonenumbermatcher.go:566-577 *)
Definition hasNext (C : container) (A : alt_map) (m : matcher) : M (matcher * bool) :=
  m <- match mx_state m with
       | NotReady =>
           r <- find (S (S (len (mc_text (mx_cfg m)) - mx_index m))) C A (mx_cfg m) (mx_index m) (mx_work m) ;;
           Ret (match r with
                | (None, w) => {| mx_cfg := mx_cfg m; mx_work := w; mx_state := Done; mx_last := None; mx_index := mx_index m |}
                | (Some p, w) => {| mx_cfg := mx_cfg m; mx_work := w; mx_state := Ready; mx_last := Some p; mx_index := pm_end p |}
                end)
       | _ => Ret m
       end ;;
  Ret (m, match mx_state m with Ready => true | _ => false end).

(** phonenumbermatcher.go:581-589 *)
Definition next (C : container) (A : alt_map) (m : matcher) : M (matcher * option pmatch) :=
  '(m, b) <- hasNext C A m ;;
  if negb b then Ret (m, None)
  else Ret ({| mx_cfg := mx_cfg m; mx_work := mx_work m; mx_state := NotReady; mx_last := None; mx_index := mx_index m |},
            mx_last m).

(** phonenumberutil.go:2684-2691: the body of the iterator. The consumer is the function [yield]: given the matches received
    so far it says whether to go on. The result is what the consumer received, in order, and the matcher afterwards. Fuel
    again stands for "for"; running out counts as a panic. A nil match handed to the consumer would be [None]. *)
Fixpoint range_loop (fuel : nat) (C : container) (A : alt_map) (yield : list (option pmatch) -> bool) (m : matcher)
    (got : list (option pmatch)) : M (list (option pmatch) * matcher) :=
  match fuel with
  | O => Panic
  | S fuel' =>
      '(m, b) <- hasNext C A m ;;
      if negb b then Ret (got, m)
      else
        '(m, p) <- next C A m ;;
        let got := got ++ [p] in
        if yield got then range_loop fuel' C A yield m got else Ret (got, m)
  end.

(** phonenumberutil.go:2683-2692 *)
Definition FindNumbersWithLeniency (C : container) (A : alt_map) (text region : bytes) (l : leniency) (maxTries : Z)
    (yield : list (option pmatch) -> bool) : M (list (option pmatch) * matcher) :=
  range_loop (S (S (len text))) C A yield (newPhoneNumberMatcher text region l maxTries) [].

(** math.MaxInt on a 64-bit platform *)
Definition max_int : Z := 9223372036854775807%Z.

(** phonenumberutil.go:2675-2677 *)
Definition FindNumbers (C : container) (A : alt_map) (text region : bytes) (yield : list (option pmatch) -> bool)
  : M (list (option pmatch) * matcher) :=
  FindNumbersWithLeniency C A text region VALID max_int yield.
