(** Model of internal/metadatabuilder/metadatabuilder.go: from the unmarshalled XML elements to the metadata messages.
    The XML decoder itself (encoding/xml) is not modelled: the records below are its output. A Go map used as a set is a
    duplicate-free list; the code only tests membership, tests the size, and sorts what it extracts. No proofs here. *)
From Verif Require Import Base Utf8 Regex Types.

(** metadatabuilder.go:741-758 *)
Record length_e := { le_national : bytes; le_local : bytes }.
Record desc_e := { de_pattern : bytes; de_lengths : option length_e; de_example : bytes }.

(** metadatabuilder.go:718-739 *)
Record nfmt_e := {
  fe_leading : list bytes; fe_format : bytes; fe_intl : list bytes; fe_npfr : bytes; fe_npopt : option bool;
  fe_ccfr : bytes; fe_pattern : bytes }.

(** metadatabuilder.go:615-715 (the References are never used). *)
Record terr_e := {
  te_id : bytes; te_main : bool; te_leading : bytes; te_cc : Z; te_nprefix : bytes; te_iprefix : bytes;
  te_pref_iprefix : bytes; te_npfr : bytes; te_mnp : bool; te_np_parse : bytes; te_np_transform : bytes;
  te_extn : bytes; te_npopt : bool; te_ccfr : bytes; te_formats : list nfmt_e;
  te_general : option desc_e; te_noint : option desc_e; te_fixed : option desc_e; te_mobile : option desc_e;
  te_pager : option desc_e; te_tollfree : option desc_e; te_premium : option desc_e; te_shared : option desc_e;
  te_personal : option desc_e; te_voip : option desc_e; te_uan : option desc_e; te_voicemail : option desc_e;
  te_stdrate : option desc_e; te_shortcode : option desc_e; te_emergency : option desc_e;
  te_carrier : option desc_e; te_sms : option desc_e }.

(** metadatabuilder.go:25-30 *)
Definition sp (v : bytes) : option bytes := if is_empty v then None else Some v.

(** strings.Replace(s, old, new, 1) for a non-empty old. *)
Definition replace_first (s old new : bytes) : bytes :=
  match index_of s old with
  | Some i => firstn i s ++ new ++ skipn (i + len old) s
  | None => s
  end.

(** The bytes matched by \s. *)
Definition is_space (c : N) : bool := in_rng 9 10 c || in_rng 12 13 c || (c =? 32).

(** metadatabuilder.go:113-124. ReplaceAllLiteralString of \s by "" removes the white-space bytes. *)
Definition validateRE (r : bytes) (removeWhitespace : bool) : M bytes :=
  let r := if removeWhitespace then filter (fun c => negb (is_space c)) r else r in
  _ <- must_compile r ;; Ret r.

(** metadatabuilder.go:87-111. The map as an association list in order of first insertion. *)
Fixpoint put_region (cc : Z) (f : option (list bytes) -> list bytes) (l : list (Z * list bytes)) : list (Z * list bytes) :=
  match l with
  | [] => [(cc, f None)]
  | (k, v) :: t => if (cc =? k)%Z then (k, f (Some v)) :: t else (k, v) :: put_region cc f t
  end.
Definition add_region (acc : list (Z * list bytes)) (m : meta) : list (Z * list bytes) :=
  let r := get_bytes (md_id m) in
  put_region (mcc (Some m))
    (fun o => match o with
              | Some l => if get_bool (md_main m) then r :: l else l ++ [r]
              | None => if is_empty r then [] else [r]
              end) acc.
Definition BuildCountryCodeToRegionMap (coll : list meta) : list (Z * list bytes) := fold_left add_region coll [].

(** strconv.Atoi with the error ignored: 0 on a syntax error, the nearest representable value on a range error. *)
Definition atoi_val (s : bytes) : Z :=
  let body := match s with 43 :: t => t | 45 :: t => t | _ => s end in
  let neg := match s with 45 :: _ => true | _ => false end in
  if is_empty body || negb (all_digits body) then 0%Z
  else if neg then Z.max (- Z.of_N (dval body)) (- Z.of_N two63)
  else Z.min (Z.of_N (dval body)) (Z.of_N two63 - 1).

Definition zset_add (x : Z) (l : list Z) : list Z := if memz x l then l else l ++ [x].
Definition zset_union (l1 l2 : list Z) : list Z := fold_left (fun a x => zset_add x a) l2 l1.

(** The values j = mn, mn+1, ... (n of them). *)
Fixpoint zrange (mn : Z) (n : nat) : list Z :=
  match n with O => [] | S n' => mn :: zrange (mn + 1)%Z n' end.

(** metadatabuilder.go:324-353, one element of the comma-separated list. For the upper bound 2^63-1 the Go loop never
    ends (j <= max always holds); that is reported as [Panic] here. *)
Definition length_element (s : bytes) (acc : list Z) : M (list Z) :=
  match s with
  | [] => Panic
  | 91 :: t =>
      if negb (last s 0 =? 93) then Panic
      else match split_byte (removelast t) 45 with
           | [a; b] =>
               let mn := atoi_val a in
               let mx := atoi_val b in
               if (mx - mn <? 2)%Z then Panic
               else if (mx =? Z.of_N two63 - 1)%Z then Panic
               else Ret (zset_union acc (map to_int32 (zrange mn (Z.to_nat (mx - mn + 1)))))
           | _ => Panic
           end
  | _ => Ret (zset_add (to_int32 (atoi_val s)) acc)
  end.
Fixpoint length_elements (l : list bytes) (acc : list Z) : M (list Z) :=
  match l with
  | [] => Ret acc
  | s :: t => acc <- length_element s acc ;; length_elements t acc
  end.

(** metadatabuilder.go:317-355 *)
Definition parsePossibleLengthStringToSet (s : bytes) : M (list Z) :=
  if is_empty s then Panic else length_elements (split_byte s 44) [].

(** metadatabuilder.go:366-410: (lengths, localOnlyLengths) afterwards. *)
Fixpoint populatePossibleLengthSets (data : list (option desc_e)) (lengths locals : list Z) : M (list Z * list Z) :=
  match data with
  | [] => Ret (lengths, locals)
  | d :: t =>
      match match d with Some d => de_lengths d | None => None end with
      | None => populatePossibleLengthSets t lengths locals
      | Some e =>
          this <- parsePossibleLengthStringToSet (le_national e) ;;
          locals <- (if negb (is_empty (le_local e)) then
                       tl <- parsePossibleLengthStringToSet (le_local e) ;;
                       if existsb (fun k => memz k tl) this then Panic else Ret (zset_union locals tl)
                     else Ret locals) ;;
          populatePossibleLengthSets t (zset_union lengths this) locals
      end
  end.

(** sort.Slice with < *)
Fixpoint zinsert (x : Z) (l : list Z) : list Z :=
  match l with
  | [] => [x]
  | y :: t => if (x <=? y)%Z then x :: l else y :: zinsert x t
  end.
Definition zsort (l : list Z) : list Z := fold_right zinsert [] l.

(** metadatabuilder.go:294-307 *)
Definition arePossibleLengthsEqual (lengths : list Z) (d : desc) : bool :=
  (List.length lengths =? List.length (d_len d))%nat && forallb (fun v => memz v lengths) (d_len d).

(** metadatabuilder.go:472-513 *)
Definition setPossibleLengths (lengths locals : list Z) (parent : option desc) (d : desc) : M desc :=
  let same := match parent with None => false | Some p => arePossibleLengthsEqual lengths p end in
  pl <- (if same then Ret []
         else if forallb (fun x => match parent with None => true | Some p => memz x (d_len p) end) lengths
              then Ret lengths else Panic) ;;
  let loc := filter (fun x => negb (memz x lengths)) locals in
  if forallb (fun x => match parent with None => true | Some p => memz x (d_len p) || memz x (d_local p) end) loc
  then Ret {| d_pattern := d_pattern d; d_len := zsort pl; d_local := zsort loc; d_example := d_example d |}
  else Panic.

Definition desc0 : desc := {| d_pattern := None; d_len := []; d_local := []; d_example := None |}.

(** metadatabuilder.go:431-462 *)
Definition processPhoneNumberDescElement (parent : option desc) (element : option desc_e) : M desc :=
  match element with
  | None => Ret {| d_pattern := None; d_len := [(-1)%Z]; d_local := []; d_example := None |}
  | Some e =>
      d <- match parent with
           | None => Ret desc0
           | Some _ =>
               ls <- populatePossibleLengthSets [Some e] [] [] ;;
               let '(lengths, locals) := ls in setPossibleLengths lengths locals parent desc0
           end ;;
      pat <- (if is_empty (de_pattern e) then Ret None else p <- validateRE (de_pattern e) true ;; Ret (sp p)) ;;
      Ret {| d_pattern := pat; d_len := d_len d; d_local := d_local d; d_example := sp (de_example e) |}
  end.

(** metadatabuilder.go:518-549 *)
Definition setPossibleLengthsGeneralDesc (g : desc) (t : terr_e) (isShort : bool) : M desc :=
  ls <- populatePossibleLengthSets [te_general t] [] [] ;;
  let '(l0, lo0) := ls in
  match l0, lo0 with
  | [], [] =>
      ls <- (if negb isShort then
               populatePossibleLengthSets
                 [te_general t; te_fixed t; te_mobile t; te_pager t; te_tollfree t; te_premium t; te_shared t;
                  te_personal t; te_voip t; te_uan t; te_voicemail t; te_stdrate t; te_shortcode t; te_emergency t;
                  te_carrier t] [] []
             else
               r <- populatePossibleLengthSets [te_shortcode t] [] [] ;;
               match snd r with [] => Ret r | _ => Panic end) ;;
      let '(lengths, locals) := ls in
      setPossibleLengths lengths locals None g
  | _, _ => Panic
  end.

(** metadatabuilder.go:220-232 *)
Definition getDomesticCarrierCodeFormattingRule (rule np : bytes) : bytes :=
  replace_first (replace_first rule (bs "$FG") (bs "$1")) (bs "$NP") np.
Definition getNationalPrefixFormattingRule (rule np : bytes) : bytes :=
  replace_first (replace_first rule (bs "$NP") np) (bs "$FG") (bs "$1").

(** metadatabuilder.go:166-172 *)
Fixpoint leading_patterns (l : list bytes) : M (list bytes) :=
  match l with
  | [] => Ret []
  | p :: t => p <- validateRE p true ;; t <- leading_patterns t ;; Ret (p :: t)
  end.

(** metadatabuilder.go:214-218, with the rules set by loadAvailableFormats (255-272). *)
Definition national_format (e : nfmt_e) (np npfr ccfr : bytes) (npopt : bool) : M nfmt :=
  let rule := if negb (is_empty (fe_npfr e)) then sp (getNationalPrefixFormattingRule (fe_npfr e) np) else sp npfr in
  let opt := match fe_npopt e with Some b => Some b | None => if npopt then Some true else None end in
  dcc <- (if negb (is_empty (fe_ccfr e)) then
            r <- validateRE (getDomesticCarrierCodeFormattingRule (fe_ccfr e) np) false ;; Ret (sp r)
          else Ret (sp ccfr)) ;;
  ld <- leading_patterns (fe_leading e) ;;
  p <- validateRE (fe_pattern e) false ;;
  Ret {| nf_pattern := sp p; nf_format := sp (fe_format e); nf_leading := ld; nf_npfr := rule; nf_npopt := opt;
         nf_dccfr := dcc |}.

(** metadatabuilder.go:181-206: the format to append, if any, and whether one was given explicitly. Merging into an empty
    NumberFormat (metadata_util.go:9-31) copies it. *)
Definition loadInternationalFormat (e : nfmt_e) (nf : nfmt) : M (option nfmt * bool) :=
  match fe_intl e with
  | [] => Ret (if is_some (nf_format nf) then Some nf else None, false)
  | [v] =>
      ld <- leading_patterns (fe_leading e) ;;
      let fmt := if beq v (bs "NA") then None else sp v in
      let f := {| nf_pattern := sp (fe_pattern e); nf_format := fmt; nf_leading := ld; nf_npfr := None;
                  nf_npopt := None; nf_dccfr := None |} in
      Ret (if is_some fmt then Some f else None, true)
  | _ => Panic
  end.

(** metadatabuilder.go:250-278: national formats, international formats, whether an explicit one occurred. *)
Fixpoint load_formats (l : list nfmt_e) (np npfr ccfr : bytes) (npopt : bool) : M (list nfmt * list nfmt * bool) :=
  match l with
  | [] => Ret ([], [], false)
  | e :: t =>
      nf <- national_format e np npfr ccfr npopt ;;
      i <- loadInternationalFormat e nf ;;
      r <- load_formats t np npfr ccfr npopt ;;
      let '(nfs, infs, ex) := r in
      Ret (nf :: nfs, (match fst i with Some f => f :: infs | None => infs end), snd i || ex)
  end.

(** metadatabuilder.go:241-287 *)
Definition loadAvailableFormats (t : terr_e) (npfr : bytes) : M (list nfmt * list nfmt) :=
  let np := te_nprefix t in
  ccfr <- (if is_empty (te_ccfr t) then Ret [] else validateRE (getDomesticCarrierCodeFormattingRule (te_ccfr t) np) false) ;;
  r <- load_formats (te_formats t) np npfr ccfr (te_npopt t) ;;
  let '(nfs, infs, ex) := r in
  Ret (nfs, if ex then infs else []).

(** An optional attribute that is validated as an expression. *)
Definition opt_re (v : bytes) (ws : bool) : M (option bytes) :=
  if is_empty v then Ret None else r <- validateRE v ws ;; Ret (sp r).

(** metadatabuilder.go:126-164, 551-604 *)
Definition loadCountryMetadata (t : terr_e) (isShort isAlt : bool) : M meta :=
  leading <- opt_re (te_leading t) false ;;
  ipre <- opt_re (te_iprefix t) false ;;
  npp <- opt_re (te_np_parse t) true ;;
  npt <- (if is_empty (te_np_parse t) then Ret None else opt_re (te_np_transform t) false) ;;
  let npp := match npp with None => sp (te_nprefix t) | p => p end in
  fs <- loadAvailableFormats t (getNationalPrefixFormattingRule (te_npfr t) (te_nprefix t)) ;;
  let base g fx mo tf pr sh pe vo pa ua em vm sc st ca sm ni same :=
    {| md_general := g; md_fixed := fx; md_mobile := mo; md_tollfree := tf; md_premium := pr; md_shared := sh;
       md_personal := pe; md_voip := vo; md_pager := pa; md_uan := ua; md_emergency := em; md_voicemail := vm;
       md_shortcode := sc; md_stdrate := st; md_carrier := ca; md_sms := sm; md_noint := ni;
       md_id := sp (te_id t); md_cc := (if (te_cc t =? 0)%Z then None else Some (te_cc t));
       md_iprefix := ipre; md_pref_iprefix := sp (te_pref_iprefix t); md_nprefix := sp (te_nprefix t);
       md_extn := sp (te_extn t); md_np_parse := npp; md_np_transform := npt; md_same := same;
       md_nf := fst fs; md_inf := snd fs; md_main := (if te_main t then Some true else None);
       md_leading := leading; md_mnp := (if te_mnp t then Some true else None) |} in
  if isAlt then
    Ret (base None None None None None None None None None None None None None None None None None None)
  else
    g <- processPhoneNumberDescElement None (te_general t) ;;
    g <- setPossibleLengthsGeneralDesc g t isShort ;;
    let child e := processPhoneNumberDescElement (Some g) e in
    if negb isShort then
      fx <- child (te_fixed t) ;; mo <- child (te_mobile t) ;; sh <- child (te_shared t) ;; vo <- child (te_voip t) ;;
      pe <- child (te_personal t) ;; pa <- child (te_pager t) ;; ua <- child (te_uan t) ;;
      vm <- child (te_voicemail t) ;; ni <- child (te_noint t) ;; tf <- child (te_tollfree t) ;;
      pr <- child (te_premium t) ;;
      let same := if beq (get_d_pattern (Some mo)) (get_d_pattern (Some fx)) then Some true else None in
      Ret (base (Some g) (Some fx) (Some mo) (Some tf) (Some pr) (Some sh) (Some pe) (Some vo) (Some pa) (Some ua)
             None (Some vm) None None None None (Some ni) same)
    else
      st <- child (te_stdrate t) ;; sc <- child (te_shortcode t) ;; ca <- child (te_carrier t) ;;
      em <- child (te_emergency t) ;; tf <- child (te_tollfree t) ;; pr <- child (te_premium t) ;;
      sm <- child (te_sms t) ;;
      Ret (base (Some g) None None (Some tf) (Some pr) None None None None None (Some em) None (Some sc) (Some st)
             (Some ca) (Some sm) None None).

(** metadatabuilder.go:63-81. For alternate formats an absent id becomes the empty string. *)
Definition set_id (m : meta) (v : option bytes) : meta :=
  {| md_general := md_general m; md_fixed := md_fixed m; md_mobile := md_mobile m; md_tollfree := md_tollfree m;
     md_premium := md_premium m; md_shared := md_shared m; md_personal := md_personal m; md_voip := md_voip m;
     md_pager := md_pager m; md_uan := md_uan m; md_emergency := md_emergency m; md_voicemail := md_voicemail m;
     md_shortcode := md_shortcode m; md_stdrate := md_stdrate m; md_carrier := md_carrier m; md_sms := md_sms m;
     md_noint := md_noint m; md_id := v; md_cc := md_cc m; md_iprefix := md_iprefix m;
     md_pref_iprefix := md_pref_iprefix m; md_nprefix := md_nprefix m; md_extn := md_extn m;
     md_np_parse := md_np_parse m; md_np_transform := md_np_transform m; md_same := md_same m; md_nf := md_nf m;
     md_inf := md_inf m; md_main := md_main m; md_leading := md_leading m; md_mnp := md_mnp m |}.
Fixpoint build_all (l : list terr_e) (isShort isAlt : bool) : M (list meta) :=
  match l with
  | [] => Ret []
  | t :: l' =>
      m <- loadCountryMetadata t isShort isAlt ;;
      let m := if isAlt && negb (is_some (md_id m)) then set_id m (Some []) else m in
      ms <- build_all l' isShort isAlt ;;
      Ret (m :: ms)
  end.

(** metadatabuilder.go:40-61 *)
Definition BuildPhoneMetadataCollection (doc : list terr_e) (isShort : bool) : M (list meta) := build_all doc isShort false.
Definition BuildAlternateFormatsMetadataCollection (doc : list terr_e) : M (list meta) := build_all doc false true.
