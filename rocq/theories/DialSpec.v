(** What the less common formatting functions should print, in terms of the public functions and of the metadata's own texts. *)
From Verif Require Import Base Utf8 Regex RegexSpec Consts Types Normalize NormalizeSpec Validate Format Parse MetaSpec ValidateSpec FormatSpec RuleSpec ReadSpec ExtSpec.

(** * Dialling from a mobile phone *)
(** A subscriber line, as opposed to a service number. *)
Definition line (t : ptype) : Prop := t = FIXED_LINE \/ t = MOBILE \/ t = FIXED_LINE_OR_MOBILE.
(** Numbers that need a carrier code when dialled at home: Brazilian lines. *)
Definition needs_carrier (r : bytes) (t : ptype) : Prop := r = bs "BR" /\ line t.
(** Numbers dialled in international form even at home: global services and Mexican, Chilean and Uzbek lines. *)
Definition dialled_internationally (r : bytes) (t : ptype) : Prop := r = bs "001" \/ (r = bs "MX" \/ r = bs "CL" \/ r = bs "UZ") /\ line t.
Definition without_extension (n : phone) : phone := set_ext n None.
(** The text for a caller in the number's own region r; the number n has no extension and type t. *)
Definition home_text (C : container) (n : phone) (r : bytes) (t : ptype) (s : bytes) : Prop :=
  (needs_carrier r t -> if is_empty (get_carrier n) then s = [] else FormatNationalNumberWithCarrierCode C n (get_carrier n) = Ret s) /\
  (~ needs_carrier r t -> get_cc n = 1%Z ->
     (CanBeInternationallyDialled C n = Ret true -> IsPossibleNumberForTypeWithReason C n UNKNOWN <> Ret TOO_SHORT -> Format C n INTERNATIONAL = Ret s) /\
     (CanBeInternationallyDialled C n = Ret false \/ IsPossibleNumberForTypeWithReason C n UNKNOWN = Ret TOO_SHORT -> Format C n NATIONAL = Ret s)) /\
  (~ needs_carrier r t -> get_cc n <> 1%Z -> dialled_internationally r t ->
     (CanBeInternationallyDialled C n = Ret true -> Format C n INTERNATIONAL = Ret s) /\
     (CanBeInternationallyDialled C n = Ret false -> Format C n NATIONAL = Ret s)) /\
  (~ needs_carrier r t -> get_cc n <> 1%Z -> ~ dialled_internationally r t -> Format C n NATIONAL = Ret s).

(** * Keeping the letters of the input *)
(** What is kept of a character: ASCII digits, letters (as capitals), plus, star, and the separators: hyphens and dashes as a
    hyphen, slashes, spaces and full stops, ASCII or full width. Dotless i and long s count as letters, their capitals being I and S. *)
Definition kept_rune (c : N) : bytes :=
  if is_digit c || in_rng 65 90 c || (c =? 43) || (c =? 42) then [c]
  else if in_rng 97 122 c then [c - 32]
  else if c =? 305 then bs "I" else if c =? 383 then bs "S"
  else if (c =? 45) || in_rng 0x2010 0x2015 c || (c =? 0x2212) || (c =? 0xFF0D) then bs "-"
  else if (c =? 47) || (c =? 0xFF0F) then bs "/"
  else if (c =? 32) || (c =? 0x2060) || (c =? 0x3000) then bs " "
  else if (c =? 46) || (c =? 0xFF0E) then bs "." else [].
Definition kept_text (raw : bytes) : bytes := flat_map kept_rune (runes raw).
(** From the first occurrence of d on, if there is one. *)
Definition from_first (d s t : bytes) : Prop :=
  (exists a, s = a ++ t /\ (exists b, t = d ++ b) /\ forall a' b', s = a' ++ d ++ b' -> (length a <= length a')%nat) \/
  (t = s /\ forall a b, s <> a ++ d ++ b).
(** The part of the input that stands for the number. *)
Definition kept (raw nsn t : bytes) : Prop :=
  if (length nsn <=? 3)%nat then t = kept_text raw else from_first (firstn 3 nsn) (kept_text raw) t.
(** The national prefix rule "u$1v" put around the first digits of the text. *)
Definition wrapped (rule k t : bytes) : Prop :=
  (rule = [] \/ filter is_digit k = []) /\ t = k \/
  exists u v a d b, rule = u ++ 36 :: 49 :: v /\ ~ In 36 u /\ ~ In 36 v /\
    k = a ++ d ++ b /\ filter is_digit a = [] /\ d <> [] /\ all_digits d = true /\ match b with c :: _ => is_digit c = false | [] => True end /\
    t = a ++ u ++ d ++ v ++ b.
(** The only prefix for calls abroad, or the preferred one. *)
Definition exit_prefix_alpha (m : meta) : bytes := let p := get_bytes (md_iprefix m) in if all_digits p && negb (is_empty p) then p else get_bytes (md_pref_iprefix m).

(** The text with its extension cut off: a beginning; what is cut off, if anything, ends in a digit. Of digits and separators
    followed by an extension in one of the listed spellings, the extension is cut off. *)
Definition cut_extension (k body : bytes) : Prop :=
  (exists tail, k = body ++ tail /\ (tail = [] \/ exists a d, tail = a ++ [d] /\ is_digit d = true)) /\
  (forall b d label l e, k = (b ++ [d]) ++ label ++ e -> is_digit d = true -> spaced (b ++ [d]) -> (3 <= length (only_digits (b ++ [d])))%nat ->
     In (label, l) ext_labels -> all_digits e = true -> (1 <= length e <= l)%nat -> body = b ++ [d]).

(** * Formatting by given rules *)
(** Every occurrence of the key, found from left to right, replaced by the value. *)
Inductive replaced (key value : bytes) : bytes -> bytes -> Prop :=
| rep_nil : replaced key value [] []
| rep_here s t : replaced key value s t -> replaced key value (key ++ s) (value ++ t)
| rep_skip c s t : (forall u, c :: s <> key ++ u) -> replaced key value s t -> replaced key value (c :: s) (c :: t).
(** The rule for the national prefix, where $NP stands for the national prefix np and $FG for the first group; without a national
    prefix no rule is used. *)
Definition filled_rule (np rule : bytes) (o : option bytes) : Prop :=
  match rule with
  | [] => o = None
  | _ => match np with
         | [] => o = None
         | _ => exists t u, replaced (bs "$NP") np rule t /\ replaced (bs "$FG") (bs "$1") t u /\ o = Some u
         end
  end.

(** A rule a caller may give: its pattern compiles, and matches the same inside "^(?:...)$"; its patterns for leading digits
    compile; and if its rule for the national prefix is used, that has the form "u$1v" and its format has a group reference. *)
Definition usable (np : bytes) (f : nfmt) : Prop :=
  (exists x y, compile (get_pattern f) = Some x /\ compile (bs "^(?:" ++ get_pattern f ++ bs ")$") = Some y /\ re_ast y = RCat RBegin (RCat (re_ast x) REnd)) /\
  (forall p, In p (nf_leading f) -> compile p <> None) /\
  (forall u, filled_rule np (get_npfr f) (Some u) -> exists t, combined (get_format f) u t).
(** The text with the calling code in front, as the format asks for. *)
Definition with_code (cc : Z) (nf : pformat) (t : bytes) : bytes :=
  match nf with E164 => bs "+" ++ itoa cc ++ t | INTERNATIONAL => bs "+" ++ itoa cc ++ bs " " ++ t | RFC3966 => bs "tel:+" ++ itoa cc ++ bs "-" ++ t | NATIONAL => t end.

(** * The format the number was typed in *)
(** Some NATIONAL rule of the metadata applies to the number. *)
Definition has_rule (C : container) (n : phone) : Prop := exists m f, main_entry C (get_cc n) m /\ In f (md_nf m) /\ applies f (GetNationalSignificantNumber n).
(** The number was typed with the national prefix np: its digits begin with np and the rest is a valid number of the region r. *)
Definition typed_with (C : container) (n : phone) (np r : bytes) : Prop := exists rest k,
  NormalizeDigitsOnly (get_raw n) = np ++ rest /\ Parse C rest r = Ret (k, None) /\ IsValidNumber C k = Ret true.
(** The region r has a national prefix, the number was typed without it, and the rule f that formats it would print one. *)
Definition prefix_unwanted (C : container) (n : phone) (f : nfmt) (m : meta) : Prop := exists r rest np u v,
  assocz (get_cc n) (c_cc2region C) = Some (r :: rest) /\ r <> bs "001" /\ assocb r (c_region C) = Some m /\
  np = filter (fun c => negb (c =? 126)) (get_bytes (md_nprefix m)) /\ np <> [] /\ ~ typed_with C n np r /\
  first_applying (md_nf m) (GetNationalSignificantNumber n) (Some f) /\ get_npfr f = u ++ bs "$1" ++ v /\ (forall a b, u ++ bs "$" <> a ++ bs "$1" ++ b) /\ NormalizeDigitsOnly u <> [].
(** The text for a number typed in national form. *)
Definition typed_national (C : container) (n : phone) (t : bytes) : Prop :=
  (exists f m x, prefix_unwanted C n f m /\ compile (get_pattern f) = Some x /\ t = re_replace_all x (GetNationalSignificantNumber n) (get_format f) ++ extension_text m (get_ext n)) \/
  ((forall f m, ~ prefix_unwanted C n f m) /\ Format C n NATIONAL = Ret t).
(** The text for the way the number was typed. *)
Definition as_typed (C : container) (n : phone) (from t : bytes) : Prop :=
  match get_src n with
  | FROM_NUMBER_WITH_PLUS_SIGN => Format C n INTERNATIONAL = Ret t
  | FROM_NUMBER_WITH_IDD => FormatOutOfCountryCallingNumber C n from = Ret t
  | FROM_NUMBER_WITHOUT_PLUS_SIGN => exists c, Format C n INTERNATIONAL = Ret (c :: t)
  | _ => typed_national C n t
  end.
