(** Data types of the library: the protobuf messages of phonenumber.proto / phonemetadata.proto and the enumerations of
    enums.go, plus the generated getters (phonenumber.pb.go, phonemetadata.pb.go). No proofs here. *)
From Verif Require Import Base.

(** phonenumber.proto:118 / phonenumber.pb.go, PhoneNumber_CountryCodeSource (numeric values 0, 1, 5, 10, 20). *)
Inductive ccsource :=
  | UNSPECIFIED                     (* 0 *)
  | FROM_NUMBER_WITH_PLUS_SIGN      (* 1 *)
  | FROM_NUMBER_WITH_IDD            (* 5 *)
  | FROM_NUMBER_WITHOUT_PLUS_SIGN   (* 10 *)
  | FROM_DEFAULT_COUNTRY.           (* 20 *)

(** phonenumber.pb.go, struct PhoneNumber. Pointer fields are options. CountryCode and NumberOfLeadingZeros are int32,
    NationalNumber is uint64; the ranges are hypotheses of the theorems that need them. *)
Record phone := {
  p_cc : option Z;
  p_nn : option N;
  p_ext : option bytes;
  p_ilz : option bool;
  p_nlz : option Z;
  p_raw : option bytes;
  p_src : option ccsource;
  p_carrier : option bytes
}.

(** &PhoneNumber{} *)
Definition phone0 : phone :=
  {| p_cc := None; p_nn := None; p_ext := None; p_ilz := None; p_nlz := None; p_raw := None; p_src := None;
     p_carrier := None |}.

(** Field assignments. *)
Definition set_cc (n : phone) v := {| p_cc := v; p_nn := p_nn n; p_ext := p_ext n; p_ilz := p_ilz n;
  p_nlz := p_nlz n; p_raw := p_raw n; p_src := p_src n; p_carrier := p_carrier n |}.
Definition set_nn (n : phone) v := {| p_cc := p_cc n; p_nn := v; p_ext := p_ext n; p_ilz := p_ilz n;
  p_nlz := p_nlz n; p_raw := p_raw n; p_src := p_src n; p_carrier := p_carrier n |}.
Definition set_ext (n : phone) v := {| p_cc := p_cc n; p_nn := p_nn n; p_ext := v; p_ilz := p_ilz n;
  p_nlz := p_nlz n; p_raw := p_raw n; p_src := p_src n; p_carrier := p_carrier n |}.
Definition set_ilz (n : phone) v := {| p_cc := p_cc n; p_nn := p_nn n; p_ext := p_ext n; p_ilz := v;
  p_nlz := p_nlz n; p_raw := p_raw n; p_src := p_src n; p_carrier := p_carrier n |}.
Definition set_nlz (n : phone) v := {| p_cc := p_cc n; p_nn := p_nn n; p_ext := p_ext n; p_ilz := p_ilz n;
  p_nlz := v; p_raw := p_raw n; p_src := p_src n; p_carrier := p_carrier n |}.
Definition set_raw (n : phone) v := {| p_cc := p_cc n; p_nn := p_nn n; p_ext := p_ext n; p_ilz := p_ilz n;
  p_nlz := p_nlz n; p_raw := v; p_src := p_src n; p_carrier := p_carrier n |}.
Definition set_src (n : phone) v := {| p_cc := p_cc n; p_nn := p_nn n; p_ext := p_ext n; p_ilz := p_ilz n;
  p_nlz := p_nlz n; p_raw := p_raw n; p_src := v; p_carrier := p_carrier n |}.
Definition set_carrier (n : phone) v := {| p_cc := p_cc n; p_nn := p_nn n; p_ext := p_ext n; p_ilz := p_ilz n;
  p_nlz := p_nlz n; p_raw := p_raw n; p_src := p_src n; p_carrier := v |}.

(** Generated getters of PhoneNumber (phonenumber.pb.go): the proto default when unset. *)
Definition get_cc (n : phone) : Z := match p_cc n with Some z => z | None => 0%Z end.
Definition get_nn (n : phone) : N := match p_nn n with Some v => v | None => 0 end.
Definition get_ext (n : phone) : bytes := get_bytes (p_ext n).
Definition get_ilz (n : phone) : bool := get_bool (p_ilz n).
Definition get_nlz (n : phone) : Z := match p_nlz n with Some z => z | None => 1%Z end.   (* [default = 1] *)
Definition get_raw (n : phone) : bytes := get_bytes (p_raw n).
Definition get_src (n : phone) : ccsource := match p_src n with Some s => s | None => UNSPECIFIED end.
Definition get_carrier (n : phone) : bytes := get_bytes (p_carrier n).

(** phonemetadata.proto:30-95, NumberFormat. *)
Record nfmt := {
  nf_pattern : option bytes;
  nf_format : option bytes;
  nf_leading : list bytes;
  nf_npfr : option bytes;          (* national_prefix_formatting_rule *)
  nf_npopt : option bool;          (* national_prefix_optional_when_formatting *)
  nf_dccfr : option bytes          (* domestic_carrier_code_formatting_rule *)
}.
Definition set_npfr (f : nfmt) v := {| nf_pattern := nf_pattern f; nf_format := nf_format f; nf_leading := nf_leading f;
  nf_npfr := v; nf_npopt := nf_npopt f; nf_dccfr := nf_dccfr f |}.
Definition get_pattern (f : nfmt) : bytes := get_bytes (nf_pattern f).
Definition get_format (f : nfmt) : bytes := get_bytes (nf_format f).
Definition get_npfr (f : nfmt) : bytes := get_bytes (nf_npfr f).
Definition get_dccfr (f : nfmt) : bytes := get_bytes (nf_dccfr f).
Definition get_npopt (f : nfmt) : bool := get_bool (nf_npopt f).

(** phonemetadata.proto:99-135, PhoneNumberDesc. *)
Record desc := {
  d_pattern : option bytes;
  d_len : list Z;
  d_local : list Z;
  d_example : option bytes
}.
(** Nil-safe getters. *)
Definition get_d_pattern (d : option desc) : bytes := match d with Some x => get_bytes (d_pattern x) | None => [] end.
Definition get_d_example (d : option desc) : bytes := match d with Some x => get_bytes (d_example x) | None => [] end.

(** phonemetadata.proto:137-296, PhoneMetadata. *)
Record meta := {
  md_general : option desc;
  md_fixed : option desc;
  md_mobile : option desc;
  md_tollfree : option desc;
  md_premium : option desc;
  md_shared : option desc;
  md_personal : option desc;
  md_voip : option desc;
  md_pager : option desc;
  md_uan : option desc;
  md_emergency : option desc;
  md_voicemail : option desc;
  md_shortcode : option desc;
  md_stdrate : option desc;
  md_carrier : option desc;
  md_sms : option desc;
  md_noint : option desc;
  md_id : option bytes;
  md_cc : option Z;
  md_iprefix : option bytes;
  md_pref_iprefix : option bytes;
  md_nprefix : option bytes;
  md_extn : option bytes;
  md_np_parse : option bytes;
  md_np_transform : option bytes;
  md_same : option bool;
  md_nf : list nfmt;
  md_inf : list nfmt;
  md_main : option bool;
  md_leading : option bytes;
  md_mnp : option bool
}.

(** Nil-safe getters on *PhoneMetadata. *)
Definition mget {A} (d : A) (f : meta -> A) (m : option meta) : A := match m with Some x => f x | None => d end.
Definition mdesc (f : meta -> option desc) (m : option meta) : option desc := mget None f m.
Definition mbytes (f : meta -> option bytes) (m : option meta) : bytes := get_bytes (mget None f m).
Definition mbool (f : meta -> option bool) (m : option meta) : bool := get_bool (mget None f m).
Definition mcc (m : option meta) : Z := match mget None md_cc m with Some z => z | None => 0%Z end.

(** enums.go:5-22, PhoneNumberFormat. *)
Inductive pformat := E164 | INTERNATIONAL | NATIONAL | RFC3966.
Definition pformat_eqb (a b : pformat) : bool :=
  match a, b with
  | E164, E164 | INTERNATIONAL, INTERNATIONAL | NATIONAL, NATIONAL | RFC3966, RFC3966 => true
  | _, _ => false
  end.

(** enums.go:24-60, PhoneNumberType. *)
Inductive ptype :=
  | FIXED_LINE | MOBILE | FIXED_LINE_OR_MOBILE | TOLL_FREE | PREMIUM_RATE | SHARED_COST | VOIP
  | PERSONAL_NUMBER | PAGER | UAN | VOICEMAIL | UNKNOWN.
Definition ptype_eqb (a b : ptype) : bool :=
  match a, b with
  | FIXED_LINE, FIXED_LINE | MOBILE, MOBILE | FIXED_LINE_OR_MOBILE, FIXED_LINE_OR_MOBILE | TOLL_FREE, TOLL_FREE
  | PREMIUM_RATE, PREMIUM_RATE | SHARED_COST, SHARED_COST | VOIP, VOIP | PERSONAL_NUMBER, PERSONAL_NUMBER
  | PAGER, PAGER | UAN, UAN | VOICEMAIL, VOICEMAIL | UNKNOWN, UNKNOWN => true
  | _, _ => false
  end.

(** enums.go, MatchType and ValidationResult. *)
Inductive mtype := NOT_A_NUMBER | NO_MATCH | SHORT_NSN_MATCH | NSN_MATCH | EXACT_MATCH.
Inductive vresult :=
  | IS_POSSIBLE | IS_POSSIBLE_LOCAL_ONLY | INVALID_COUNTRY_CODE | TOO_SHORT | INVALID_LENGTH | TOO_LONG.
Definition vresult_eqb (a b : vresult) : bool :=
  match a, b with
  | IS_POSSIBLE, IS_POSSIBLE | IS_POSSIBLE_LOCAL_ONLY, IS_POSSIBLE_LOCAL_ONLY
  | INVALID_COUNTRY_CODE, INVALID_COUNTRY_CODE | TOO_SHORT, TOO_SHORT | INVALID_LENGTH, INVALID_LENGTH
  | TOO_LONG, TOO_LONG => true
  | _, _ => false
  end.

(** metadata/source.go:32-59, Container. Go maps are association lists. *)
Record container := {
  c_cc2region : list (Z * list bytes);
  c_region : list (bytes * meta);
  c_nongeo : list (Z * meta);
  c_nanpa : list bytes;
  c_regions : list bytes;          (* supportedRegions *)
  c_codes : list Z;                (* supportedCallingCodes *)
  c_nongeo_codes : list Z          (* countryCodesForNonGeographicalRegion *)
}.
