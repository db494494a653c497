(** Ways of writing an extension after a number, with the number of digits recognised after each. *)
From Verif Require Import Base.

Definition ext_labels : list (bytes * nat) :=
  [ (bs ";ext=", 20); (bs " ext. ", 20); (bs " ext ", 20); (bs "ext", 20); (bs " ext:", 20); (bs " extn ", 20); (bs " extension ", 20);
    (bs " EXT ", 20); (bs " Ext. ", 20); (bs " Anexo ", 20); (bs " anexo ", 20);
    (bs " x", 9); (bs "x", 9); (bs " x ", 9); (bs "X", 9); (bs "#", 9); (bs " #", 9); (bs " # ", 9); (bs "~", 9); (bs " int ", 9); (bs " int. ", 9);
    (bs ",", 9); (bs ", ", 9); (bs ",,", 15); (bs ";", 15) ]%nat.
