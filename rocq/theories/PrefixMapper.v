(** Model of internal/prefixmapper, carrier, geocoding and timezone: looking up a value by the longest known prefix of
    a number. Sequential semantics; Concurrency.v has the interleaved one. No proofs here. *)
From Verif Require Import Base Types Consts Normalize Validate Format Parse Serialize.

(** What the embedded file system gives for "<dir>/<language>.txt.gz" (gunzipped): no such file, an error, or bytes. *)
Inductive file := NoFile | FileError | FileData (s : bytes).

(** internal/prefixmapper/prefixmapper.go:48-64: what loading a language yields: the table, or no table when there is no file. *)
Definition load_language (dc : Z -> Z) (f : file) : M (option (table bytes)) :=
  match f with
  | NoFile => Ret None
  | FileError => Fail ErrOther
  | FileData s => t <- LoadPrefixMap dc s ;; Ret (Some t)
  end.

(** internal/prefixmapper/prefixmapper.go:38-65. The state is Mapper.langMap. *)
Definition lang_map := list (bytes * option (table bytes)).
Definition lazyLoadPrefixes (dc : Z -> Z) (fs : bytes -> file) (lm : lang_map) (language : bytes) : lang_map * M (option (table bytes)) :=
  match assocb language lm with
  | Some t => (lm, Ret t)
  | None => match load_language dc (fs language) with
            | Ret t => ((language, t) :: lm, Ret t)
            | Fail e => (lm, Fail e)
            | Panic => (lm, Panic)
            end
  end.

(** internal/prefixmapper/prefixmapper.go:83-92: trying the first i bytes for i from [i] down to 2. *)
Fixpoint prefix_loop (look : Z -> option bytes) (e164 : bytes) (i : nat) : M (bytes * Z) :=
  match i with
  | O | 1%nat => Ret ([], 0%Z)
  | S i' => index <- rd (atoi (firstn i e164)) ;;
            match look index with
            | Some v => Ret (v, index)
            | None => prefix_loop look e164 i'
            end
  end.
(** internal/prefixmapper/prefixmapper.go:71-93, once the table is loaded. *)
Definition value_for (t : option (table bytes)) (maxLength : nat) (e164 : bytes) : M (bytes * Z) :=
  match t with
  | None => Ret ([], 0%Z)
  | Some t => prefix_loop (look t) e164 (Nat.min maxLength (len e164))
  end.
Definition ValueForNumber (dc : Z -> Z) (fs : bytes -> file) (lm : lang_map) (language : bytes) (maxLength : nat) (e164 : bytes) : lang_map * M (bytes * Z) :=
  let '(lm, r) := lazyLoadPrefixes dc fs lm language in
  (lm, t <- r ;; value_for t maxLength e164).

(** The value returned from a freshly created Mapper. C37 shows that every other state of it gives the same. *)
Definition value_of (dc : Z -> Z) (fs : bytes -> file) (language : bytes) (maxLength : nat) (e164 : bytes) : M bytes :=
  r <- snd (ValueForNumber dc fs [] language maxLength e164) ;; Ret (fst r).

(** carrier/carrier.go:19-23 *)
Definition carrier_GetNameForValidNumber (C : container) dc fs (n : phone) (lang : bytes) : M bytes :=
  e164 <- Format C n E164 ;; value_of dc fs lang 10 e164.
(** carrier/carrier.go:48-52 *)
Definition isMobile (t : ptype) : bool :=
  match t with MOBILE | FIXED_LINE_OR_MOBILE | PAGER => true | _ => false end.
(** carrier/carrier.go:28-33 *)
Definition carrier_GetNameForNumber (C : container) dc fs (n : phone) (lang : bytes) : M bytes :=
  t <- GetNumberType C n ;;
  if isMobile t then carrier_GetNameForValidNumber C dc fs n lang else Ret [].
(** carrier/carrier.go:39-44 *)
Definition carrier_GetSafeDisplayName (C : container) dc fs (n : phone) (lang : bytes) : M bytes :=
  r <- GetRegionCodeForNumber C n ;;
  if IsMobileNumberPortableRegion C r then Ret [] else carrier_GetNameForNumber C dc fs n lang.

(** geocoding/geocoding.go:122-135: regionDisplayName; golang.org/x/text is not modelled, its names are the parameter [disp]. *)
Definition regionDisplayName (disp : bytes -> bytes -> bytes) (regionCode lang : bytes) : bytes :=
  if is_empty regionCode || beq regionCode (bs "ZZ") || beq regionCode nonGeoEntity then [] else disp regionCode lang.
(** geocoding/geocoding.go:107-117: [w] is regionWhereValid; [None] when two regions accept the number. *)
Fixpoint where_valid (C : container) (n : phone) (w : bytes) (l : list bytes) : M (option bytes) :=
  match l with
  | [] => Ret (Some w)
  | r :: t => v <- IsValidNumberForRegion C n r ;;
              if v then (if beq w (bs "ZZ") then where_valid C n r t else Ret None)
              else where_valid C n w t
  end.
(** geocoding/geocoding.go:101-120 *)
Definition countryNameForNumber (C : container) disp (n : phone) (lang : bytes) : M bytes :=
  match GetRegionCodesForCountryCode C (get_cc n) with
  | [r] => Ret (regionDisplayName disp r lang)
  | rs => w <- where_valid C n (bs "ZZ") rs ;;
          match w with
          | None => Ret []
          | Some r => Ret (regionDisplayName disp r lang)
          end
  end.
(** geocoding/geocoding.go:22-45 *)
Definition geo_GetDescriptionForValidNumber (C : container) dc fs disp (n : phone) (lang : bytes) : M bytes :=
  let token := GetCountryMobileToken (get_cc n) in
  let nsn := GetNationalSignificantNumber n in
  lookup <- (if negb (is_empty token) && has_prefix nsn token
             then r <- Parse C (skipn (len token) nsn) (GetRegionCodeForCountryCode C (get_cc n)) ;;
                  Ret (match r with (p, None) => p | (_, Some _) => n end)
             else Ret n) ;;
  e164 <- Format C lookup E164 ;;
  area <- value_of dc fs lang 10 e164 ;;
  if negb (is_empty area) then Ret area else countryNameForNumber C disp n lang.
(** geocoding/geocoding.go:58-71 *)
Definition geo_GetDescriptionForValidNumberForUserRegion (C : container) dc fs disp (n : phone) (lang userRegion : bytes) : M bytes :=
  r <- GetRegionCodeForNumber C n ;;
  if beq userRegion r then geo_GetDescriptionForValidNumber C dc fs disp n lang
  else Ret (regionDisplayName disp r lang).
(** geocoding/geocoding.go:76-84 *)
Definition geo_GetDescriptionForNumber (C : container) dc fs disp (n : phone) (lang : bytes) : M bytes :=
  t <- GetNumberType C n ;;
  match t with
  | UNKNOWN => Ret []
  | _ => if negb (IsNumberGeographicalForType t (get_cc n)) then countryNameForNumber C disp n lang
         else geo_GetDescriptionForValidNumber C dc fs disp n lang
  end.
(** geocoding/geocoding.go:88-96 *)
Definition geo_GetDescriptionForNumberForUserRegion (C : container) dc fs disp (n : phone) (lang userRegion : bytes) : M bytes :=
  t <- GetNumberType C n ;;
  match t with
  | UNKNOWN => Ret []
  | _ => if negb (IsNumberGeographicalForType t (get_cc n)) then countryNameForNumber C disp n lang
         else geo_GetDescriptionForValidNumberForUserRegion C dc fs disp n lang userRegion
  end.

(** timezone/timezone.go:22 *)
Definition tz_Unknown : bytes := Eval vm_compute in bs "Etc/Unknown".
(** timezone/timezone.go:76-85 *)
Fixpoint tz_loop (look : Z -> option (list bytes)) (number : bytes) (i : nat) : M (list bytes) :=
  match i with
  | O => Ret [tz_Unknown]
  | S i' => index <- rd (atoi (firstn i number)) ;;
            match look index with
            | Some v => Ret v
            | None => tz_loop look number i'
            end
  end.
(** strings.TrimLeft(s, "+") *)
Fixpoint trim_plus (s : bytes) : bytes :=
  match s with 43 :: t => trim_plus t | _ => s end.
(** timezone/timezone.go:60-86. [t] is the outcome of loading the table once (sync.Once); a failed load leaves it nil. *)
Definition lookupTimeZones (t : M (table (list bytes))) (number : bytes) : M (list bytes) :=
  match t with
  | Ret t => let number := trim_plus number in
             tz_loop (look t) number (Z.to_nat (Z.min (Z.of_nat (len number)) (t_max t)))
  | Fail _ => Fail ErrOther
  | Panic => Panic
  end.
(** timezone/timezone.go:45-48 *)
Definition GetTimeZonesForGeographicalNumber (C : container) t (n : phone) : M (list bytes) :=
  e164 <- Format C n E164 ;; lookupTimeZones t e164.
(** timezone/timezone.go:52-54 *)
Definition countryLevelTimeZonesForNumber t (n : phone) : M (list bytes) := lookupTimeZones t (itoa (get_cc n)).
(** timezone/timezone.go:33-41 *)
Definition GetTimeZonesForNumber (C : container) t (n : phone) : M (list bytes) :=
  ty <- GetNumberType C n ;;
  match ty with
  | UNKNOWN => Ret [tz_Unknown]
  | _ => if negb (IsNumberGeographicalForType ty (get_cc n)) then countryLevelTimeZonesForNumber t n
         else GetTimeZonesForGeographicalNumber C t n
  end.
