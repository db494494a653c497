(** Vocabulary for statements about parsing: what a parse finds, without the PhoneNumber value it is stored in. *)
From Verif Require Import Base Utf8 Regex Consts Types Normalize NormalizeSpec Validate Format Parse.

(** What a successful parse has found. [pr_nsn] are the digits of the national significant number. *)
Record parsed := { pr_cc : Z; pr_nsn : bytes; pr_ext : bytes; pr_src : option ccsource; pr_carrier : bytes }.

(** The number after storing a parse result in it: the country code, the national number and the leading-zero flag are
    always overwritten; the extension and the number of zeros only when there is something to store; source and carrier only
    when raw input is kept. *)
Definition store (keepRaw : bool) (s : bytes) (x : parsed) (p : phone) : phone :=
  let p := if keepRaw then set_raw p (Some s) else p in
  let p := if is_empty (pr_ext x) then p else set_ext p (Some (pr_ext x)) in
  let p := if keepRaw then set_src p (pr_src x) else p in
  let p := set_cc p (Some (pr_cc x)) in
  let p := if keepRaw && negb (is_empty (pr_carrier x)) then set_carrier p (Some (pr_carrier x)) else p in
  set_nn (setItalianLeadingZerosForPhoneNumber (pr_nsn x) p) (Some (parse_uint_val (pr_nsn x))).

(** The core fields of a number: country code, national number, extension, leading-zero flag and zero count. *)
Definition core (n : phone) : option Z * option N * option bytes * option bool * option Z := (p_cc n, p_nn n, p_ext n, p_ilz n, p_nlz n).

(** RFC 3966 phone contexts, over code points. *)
Definition decimal (c : N) : bool := if digit_for c then true else false.
Definition visual (c : N) : bool := existsb (N.eqb c) (bs "-.()").
(** A global number: a plus, then digits and visual separators with at least one digit. *)
Definition global_context (w : list N) : Prop := exists x, w = 43 :: x /\ forallb (fun c => decimal c || visual c) x = true /\ existsb decimal x = true.
Definition alnum (c : N) : bool := ascii_letter c || decimal c.
(** A label: letters, digits and hyphens, with a hyphen neither first nor last. *)
Definition label (x : list N) : Prop := exists a, hd_error x = Some a /\ alnum a = true /\ forallb (fun c => alnum c || (c =? 45)) x = true /\ alnum (last x a) = true.
(** A domain name: labels each followed by a dot, then a label that starts with a letter, then perhaps a dot. *)
Definition domain_context (w : list N) : Prop := exists ls top dot, w = concat (map (fun l => l ++ [46]) ls) ++ top ++ dot /\ Forall label ls /\ label top /\
  (exists a, hd_error top = Some a /\ ascii_letter a = true) /\ (dot = [] \/ dot = [46]).
Definition valid_context (ctx : bytes) : Prop := global_context (runes ctx) \/ domain_context (runes ctx).
(** The first phone-context parameter of s: what is before it, its value, and what follows (nothing, or another parameter). *)
Definition first_context (s before ctx after : bytes) : Prop :=
  s = before ++ bs ";phone-context=" ++ ctx ++ after /\ (forall a b, s = a ++ bs ";phone-context=" ++ b -> (length before <= length a)%nat) /\
  ~ In 59 ctx /\ (after = [] \/ exists t, after = 59 :: t).
