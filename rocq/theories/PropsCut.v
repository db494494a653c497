(** C98: a table file that was cut off or has bytes added never loads as a different table. *)
From Verif Require Import Base BaseFacts Serialize PrefixFacts FileSpec PropsFile.
From Verif Require PropsTable.

Lemma varint_more s v r x : varint s v r -> varint (s ++ x) v (r ++ x).
Proof. intros (ds & z & -> & H). exists ds, z. split; [rewrite <- app_assoc; reflexivity|exact H]. Qed.
Lemma u32_more s v r x : u32 s v r -> u32 (s ++ x) v (r ++ x).
Proof. intros (a & b & c & d & -> & ->). exists a, b, c, d. split; reflexivity. Qed.
Lemma heading_more s values count r x : heading s values count r -> heading (s ++ x) values count (r ++ x).
Proof. intros (size & s1 & text & s2 & U1 & -> & L & J & U2). exists size, ((text ++ s2) ++ x), text, (s2 ++ x). split; [apply u32_more; exact U1|]. split; [rewrite <- app_assoc; reflexivity|]. split; [exact L|]. split; [exact J|apply u32_more; exact U2]. Qed.
Lemma entries_longer values n p s l x : entries values n p s l -> entries values n p (s ++ x) l.
Proof. induction 1 as [|n p s d q a b v rest l V W Nv E IH]; [constructor|]. apply (varint_more _ _ _ x) in V. cbn [app] in V. econstructor; eauto. Qed.
Lemma texts_longer values n s vs r x : texts values n s vs r -> texts values n (s ++ x) vs (r ++ x).
Proof. induction 1; cbn [app]; econstructor; eauto. Qed.
Lemma arrays_longer values n p s l x : arrays values n p s l -> arrays values n p (s ++ x) l.
Proof. induction 1 as [|n p s d q c s1 vs s2 l V W T E IH]; [constructor|]. apply (varint_more _ _ _ x) in V. cbn [app] in V. apply (texts_longer _ _ _ _ _ x) in T. econstructor; eauto. Qed.

Lemma prefix_more dc s x t : octets (s ++ x) -> LoadPrefixMap dc s = Ret t -> LoadPrefixMap dc (s ++ x) = Ret t.
Proof.
  intros O H. assert (Os : octets s) by (apply Forall_app in O; tauto). apply (C97_prefix_file _ _ _ Os) in H as (values & count & rest & l & Hd & El & Et). apply (C97_prefix_file _ _ _ O). exists values, count, (rest ++ x), l. split; [apply heading_more; exact Hd|]. split; [apply entries_longer; exact El|exact Et].
Qed.
Lemma array_more dc s x t : octets (s ++ x) -> LoadIntArrayMap dc s = Ret t -> LoadIntArrayMap dc (s ++ x) = Ret t.
Proof.
  intros O H. assert (Os : octets s) by (apply Forall_app in O; tauto). apply (C97_array_file _ _ _ Os) in H as (values & count & rest & l & Hd & El & Et). apply (C97_array_file _ _ _ O). exists values, count, (rest ++ x), l. split; [apply heading_more; exact Hd|]. split; [apply arrays_longer; exact El|exact Et].
Qed.

(** C98: whatever n bytes of a good file were kept: the load fails with an error or gives the whole table. *)
Theorem C98_cut : forall dc s t, octets s -> LoadPrefixMap dc s = Ret t -> forall n, LoadPrefixMap dc (firstn n s) = Ret t \/ exists e, LoadPrefixMap dc (firstn n s) = Fail e.
Proof.
  intros dc s t O H n. destruct (LoadPrefixMap dc (firstn n s)) as [u|e|] eqn:E; [left|right; eauto|]. 2:{ exfalso. exact (PropsTable.C40_total _ _ E). }
  rewrite <- (firstn_skipn n s) in O, H. rewrite (prefix_more _ _ _ _ O E) in H. exact H.
Qed.
Print Assumptions C98_cut.
Theorem C98_cut_arrays : forall dc s t, octets s -> LoadIntArrayMap dc s = Ret t -> forall n, LoadIntArrayMap dc (firstn n s) = Ret t \/ exists e, LoadIntArrayMap dc (firstn n s) = Fail e.
Proof.
  intros dc s t O H n. destruct (LoadIntArrayMap dc (firstn n s)) as [u|e|] eqn:E; [left|right; eauto|]. 2:{ exfalso. exact (PropsTable.C39_total _ _ E). }
  rewrite <- (firstn_skipn n s) in O, H. rewrite (array_more _ _ _ _ O E) in H. exact H.
Qed.
Print Assumptions C98_cut_arrays.
(** Added bytes change nothing. *)
Theorem C98_added : forall dc s x t ta, octets s -> octets x -> (LoadPrefixMap dc s = Ret t -> LoadPrefixMap dc (s ++ x) = Ret t) /\ (LoadIntArrayMap dc s = Ret ta -> LoadIntArrayMap dc (s ++ x) = Ret ta).
Proof. intros dc s x t ta Os Ox. assert (O : octets (s ++ x)) by (apply Forall_app; auto). split; [apply prefix_more|apply array_more]; exact O. Qed.
Print Assumptions C98_added.

(** The file of C97 with its stray byte: 19 bytes suffice, any fewer are refused. *)
Example C98_witness : LoadPrefixMap (fun _ => 3%Z) (firstn 19 small_file) = LoadPrefixMap (fun _ => 3%Z) small_file /\ (forall n, (n < 19)%nat -> exists e, LoadPrefixMap (fun _ => 3%Z) (firstn n small_file) = Fail e).
Proof. split; [vm_compute; reflexivity|]. intros n L. do 19 (destruct n as [|n]; [vm_compute; eauto|]). lia. Qed.
