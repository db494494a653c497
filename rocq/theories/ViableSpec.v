(** Which texts are taken for a phone number, and what an extension looks like. All texts are lists of code points. *)
From Coq Require Import List NArith ZArith Bool.
From Verif Require Import Base Utf8 UnicodeSpec NormalizeSpec ParseSpec.
Import ListNotations.
Local Open Scope N_scope.

(** * Extensions *)
(** A letter of a label may be written in either case. The long s counts as an s, and two small letters of Old Church Slavonic
    count as their Cyrillic relatives. *)
Definition cases (a : N) : list N :=
  if a =? 115 then [115; 83; 383]
  else if in_rng 97 122 a then [a; a - 32]
  else if a =? 243 then [243; 211]
  else if a =? 1076 then [1076; 1044; 7297]
  else if a =? 1086 then [1086; 1054; 7298]
  else if a =? 1073 then [1073; 1041]
  else if in_rng 65345 65370 a then [a; a - 32]
  else [a].
Definition written (label w : list N) : Prop := Forall2 (fun a c => In c (cases a)) label w.
(** ext, xt, extension, extensión (o with an acute accent as one or two code points), xtension ..., each with or without the final n;
    the same in wide letters where it exists; Russian dob; anexo. *)
Definition long_labels : list (list N) :=
  flat_map (fun e => flat_map (fun m => map (fun n => e ++ bs "xt" ++ m ++ n) [[]; bs "n"]) [[]; bs "ensio"; bs "ensio" ++ [769]; bs "ensi" ++ [243]]) [[]; bs "e"] ++
  flat_map (fun e => map (fun n => e ++ [65368; 65364] ++ n) [[]; [65358]]) [[]; [65349]] ++
  [[1076; 1086; 1073]; bs "anexo"].
(** x, hash and tilde, narrow or wide, and int. *)
Definition short_labels : list (list N) := [bs "x"; [65368]; bs "#"; [65283]; bs "~"; [65374]; bs "int"; [65353; 65358; 65364]].

Definition made_of (signs w : list N) : Prop := forall c, In c w -> In c signs.
Definition some_digits (most : nat) (d : list N) : Prop := (1 <= length d <= most)%nat /\ forall c, In c d -> decimal c = true.
(** After the label: a colon or a full stop if wanted, blanks, commas and hyphens, the digits, a hash sign if wanted. *)
Definition rest_of_extension (most : nat) (w : list N) : Prop := exists dot gap d hash, w = dot ++ gap ++ d ++ hash /\
  In dot [[]; [58]; [46]; [65294]] /\ made_of [32; 160; 9; 44; 45] gap /\ some_digits most d /\ In hash [[]; [35]].
Definition extension (e : list N) : Prop :=
  (exists l d, e = l ++ d /\ written (bs ";ext=") l /\ some_digits 20 d) \/
  (exists b label l w, e = b ++ l ++ w /\ made_of [32; 160; 9; 44] b /\ In label long_labels /\ written label l /\ rest_of_extension 20 w) \/
  (exists b label l w, e = b ++ l ++ w /\ made_of [32; 160; 9; 44] b /\ In label short_labels /\ written label l /\ rest_of_extension 9 w) \/
  (exists b d, e = b ++ d ++ [35] /\ b <> [] /\ made_of [45; 32] b /\ some_digits 6 d) \/
  (exists b l w, e = b ++ l ++ w /\ made_of [32; 160; 9] b /\ In l [[44; 44]; [59]] /\ rest_of_extension 15 w) \/
  (exists b l w, e = b ++ l ++ w /\ made_of [32; 160; 9] b /\ l <> [] /\ made_of [44] l /\ rest_of_extension 9 w).

(** * Phone numbers *)
(** Signs between digits: hyphens and dashes, blanks, brackets, full stops, slashes, tildes, star, and the letter x. *)
Definition signs : list N := [45; 120; 88; 8208; 8209; 8210; 8211; 8212; 8213; 8722; 12540; 65293; 65294; 65295; 32; 160; 173; 8203; 8288; 12288; 40; 41; 65288; 65289;
  65339; 65341; 46; 91; 93; 47; 126; 8275; 8764; 65374; 42].
(** The letters A-Z in either case, the long s and the Kelvin sign. *)
Definition wide_letter (c : N) : bool := ascii_letter c || (c =? 383) || (c =? 8490).
(** At least three digits, before the first letter that is not an x. *)
Definition body (w : list N) : Prop := exists a b, w = a ++ b /\ (forall c, In c a -> decimal c = true \/ In c signs) /\ (3 <= length (filter decimal a))%nat /\
  (forall c, In c b -> decimal c = true \/ wide_letter c = true \/ In c signs).
Definition number_text (t : list N) : Prop :=
  (exists a b, t = [a; b] /\ decimal a = true /\ decimal b = true) \/
  (exists plus w e, t = plus ++ w ++ e /\ made_of [43; 65291] plus /\ body w /\ (e = [] \/ extension e)).

(** The text without its extension: the longest end of the text that is an extension is cut off, provided that what is left is
    still a phone number. *)
Definition extension_at (s : bytes) (i : nat) : Prop := (i <= length s)%nat /\ extension (runes (skipn i s)).
Definition main_part (s m : bytes) : Prop :=
  (exists i, extension_at s i /\ (forall j, (j < i)%nat -> ~ extension_at s j) /\ m = firstn i s /\ number_text (runes m)) \/
  (m = s /\ forall i, extension_at s i -> (forall j, (j < i)%nat -> ~ extension_at s j) -> ~ number_text (runes (firstn i s))).
