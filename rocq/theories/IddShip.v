(** The shipped metadata meets the conditions of IddRun. *)
From Verif Require Import Base Types Format Container Shipped AsYouType AytfSpec RuleSpec ShowFacts ShowShip NatSpec NatFacts IddSpec IddRun.
Definition has_room (m : meta) : bool := roomy (rules m INTERNATIONAL) && forallb (fun g => negb (has_len g 3)) (rules m INTERNATIONAL).
Lemma abroad_one m : meta_clear m = true -> has_room m = true -> abroad_clear m = true.
Proof.
  unfold meta_clear, has_room, abroad_clear. cbv zeta. generalize (rules m INTERNATIONAL) as l. intros l. generalize (rules_clear l) (roomy l) (forallb (fun g => negb (has_len g 3)) l) (plus_first (Some m)). intros [] [] [] []; cbn; auto.
Qed.
Lemma both {A} (p q r : A -> bool) L : (forall m, p m = true -> q m = true -> r m = true) -> forallb p L = true -> forallb q L = true -> forallb r L = true.
Proof. rewrite !forallb_forall. auto. Qed.
Lemma shipped_room : forallb has_room (map snd (c_region shipped) ++ map snd (c_nongeo shipped)) = true.
Proof. vm_cast_no_check (eq_refl true). Qed.
Lemma shipped_abroad_clear : forallb abroad_clear (map snd (c_region shipped) ++ map snd (c_nongeo shipped)) = true.
Proof. exact (both _ _ _ _ abroad_one shipped_clear shipped_room). Qed.
(** The entry the formatter works with has the region's own expression for dialling abroad. *)
Definition same_idd (C : container) (rm : bytes * meta) : bool := match aytf_metadata C (fst rm) with Some m => beq (get_bytes (md_iprefix m)) (get_bytes (md_iprefix (snd rm))) | None => false end.
Lemma shipped_same_idd : forallb (same_idd shipped) (c_region shipped) = true.
Proof. vm_cast_no_check (eq_refl true). Qed.
(** Where the expression is just two or three digits, those are what it takes. *)
Definition plain_idd (rm : bytes * meta) : bool := let p := get_bytes (md_iprefix (snd rm)) in
  match p with
  | [_; _] => negb (all_digits p) || forallb (fun d => beq (abroad_of (snd rm) (p ++ [d])) p) [48; 49; 50; 51; 52; 53; 54; 55; 56; 57]
  | [_; _; _] => negb (all_digits p) || beq (abroad_of (snd rm) p) p
  | _ => true
  end.
Lemma shipped_plain_idd : forallb plain_idd (c_region shipped) = true.
Proof. vm_cast_no_check (eq_refl true). Qed.
