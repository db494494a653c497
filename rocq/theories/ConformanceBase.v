(** Comparison functions used by the generated conformance modules. *)
From Coq Require Import List NArith ZArith Bool.
From Verif Require Import Base Types.
Import ListNotations.

Definition ccsource_eqb (a b : ccsource) : bool :=
  match a, b with
  | FROM_NUMBER_WITH_PLUS_SIGN, FROM_NUMBER_WITH_PLUS_SIGN | FROM_NUMBER_WITH_IDD, FROM_NUMBER_WITH_IDD
  | FROM_NUMBER_WITHOUT_PLUS_SIGN, FROM_NUMBER_WITHOUT_PLUS_SIGN | FROM_DEFAULT_COUNTRY, FROM_DEFAULT_COUNTRY
  | UNSPECIFIED, UNSPECIFIED => true
  | _, _ => false
  end.

Definition mtype_eqb (a b : mtype) : bool :=
  match a, b with
  | NOT_A_NUMBER, NOT_A_NUMBER | NO_MATCH, NO_MATCH | SHORT_NSN_MATCH, SHORT_NSN_MATCH | NSN_MATCH, NSN_MATCH
  | EXACT_MATCH, EXACT_MATCH => true
  | _, _ => false
  end.

Definition oeqb {A} (eqb : A -> A -> bool) (a b : option A) : bool :=
  match a, b with Some x, Some y => eqb x y | None, None => true | _, _ => false end.

(** proto.Equal on PhoneNumber: presence and value of every field. *)
Definition phone_full_eqb (a b : phone) : bool :=
  oeqb Z.eqb (p_cc a) (p_cc b) && oeqb N.eqb (p_nn a) (p_nn b) && oeqb beq (p_ext a) (p_ext b)
  && oeqb Bool.eqb (p_ilz a) (p_ilz b) && oeqb Z.eqb (p_nlz a) (p_nlz b) && oeqb beq (p_raw a) (p_raw b)
  && oeqb ccsource_eqb (p_src a) (p_src b) && oeqb beq (p_carrier a) (p_carrier b).
