(** Vocabulary for statements about PhoneNumber values. *)
From Coq Require Import List NArith ZArith Bool.
From Verif Require Import Base Types.
Import ListNotations.
Local Open Scope N_scope.

(** [d] is the shortest decimal representation of [n]. *)
Record decimal_of (d : bytes) (n : N) : Prop := {
  dc_digits : forall c, In c d -> 48 <= c <= 57;
  dc_nonempty : d <> [];
  dc_no_zero : forall t, d = 48 :: t -> t = [];
  dc_value : fold_left (fun acc c => 10 * acc + (c - 48)) d 0 = n
}.

(** The leading zeros a PhoneNumber carries: none unless the flag is set, then the stored count (1 by default). *)
Definition zeros (n : phone) : option Z :=
  match p_ilz n with
  | Some true => Some (match p_nlz n with Some k => k | None => 1%Z end)
  | _ => None
  end.

(** How many zeros are printed in front of the national number. *)
Definition zero_count (n : phone) : nat :=
  match zeros n with
  | Some k => if (0 <? k)%Z then Z.to_nat (Z.min k 17) else 0%nat
  | None => 0%nat
  end.

Definition ext_of (n : phone) : bytes := match p_ext n with Some e => e | None => [] end.
Definition cc_of (n : phone) : Z := match p_cc n with Some c => c | None => 0%Z end.
Definition nn_of (n : phone) : N := match p_nn n with Some v => v | None => 0 end.

(** National part and extension agree. *)
Definition same_national (a b : phone) : Prop := nn_of a = nn_of b /\ zeros a = zeros b.

(** One decimal string ends with the other. *)
Definition suffix_of (x y : bytes) : Prop := exists t, y = t ++ x.

(** Equal up to raw input, country code source and preferred carrier. *)
Definition same_core (a b : phone) : Prop :=
  p_cc a = p_cc b /\ p_nn a = p_nn b /\ p_ext a = p_ext b /\ p_ilz a = p_ilz b /\ p_nlz a = p_nlz b.

(** A set of calling codes in which none is a proper decimal prefix of another. *)
Definition prefix_free (codes : list Z) : Prop :=
  forall a b t, In a codes -> In b codes -> itoa b = itoa a ++ t -> a = b.

(** Ranges of the Go field types. *)
Definition go_phone (n : phone) : Prop :=
  nn_of n < 18446744073709551616
  /\ (-2147483648 <= cc_of n < 2147483648)%Z
  /\ match p_nlz n with Some k => (-2147483648 <= k < 2147483648)%Z | None => True end.
