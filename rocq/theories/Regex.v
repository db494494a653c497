(** Model of Go's [regexp] package as far as the repository uses it: an abstract syntax, a leftmost-first matcher with
    captures (Go documents the same submatch choice as Perl: the one a backtracking engine finds), a parser for the
    subset of RE2 syntax occurring in the repository and its metadata, and the library functions built on them
    (Find*, MatchString, ReplaceAll*, Split, Expand). No proofs here. *)
From Verif Require Import Base Utf8 UnicodeTables.

(** * Syntax *)

(** Unicode classes [\p{..}] that occur. *)
Inductive ucat := UNd | UN | UL | UZ.

Inductive citem :=
  | CR (lo hi : N)            (* a range of runes *)
  | CU (u : ucat)             (* \p{..} *)
  | CUneg (u : ucat).         (* \P{..} *)

Record cls := { cneg : bool; citems : list citem; cfold : bool }.

Inductive regex :=
  | REmpty
  | RClass (c : cls)
  | RCat (a b : regex)
  | RAlt (a b : regex)          (* a is preferred *)
  | RStar (greedy : bool) (a : regex)
  | RGroup (n : nat) (a : regex)  (* capturing group n >= 1 *)
  | RBegin                        (* ^ without (?m): beginning of text *)
  | REnd.                         (* $ without (?m): end of text *)

(** A compiled expression: syntax and number of capturing groups. *)
Record re := { re_ast : regex; re_ngroups : nat }.

(** * Character classes *)

Definition ucat_table (u : ucat) : list (N * N) :=
  match u with UNd => tab_Nd | UN => tab_N | UL => tab_L | UZ => tab_Z end.

Definition citem_match (i : citem) (c : N) : bool :=
  match i with
  | CR lo hi => in_rng lo hi c
  | CU u => in_table (ucat_table u) c
  | CUneg u => negb (in_table (ucat_table u) c)
  end.

(** The case-folding orbit of a rune (unicode.SimpleFold), other members only. Complete for orbits that meet ASCII,
    Latin-1, Cyrillic U+0410..U+044F and the full-width Latin letters, which are the only cased runes in the
    repository's case-insensitive patterns (phonenumberutil.go:322-377, phonenumbermatcher.go:112-115). *)
Definition fold_orbit (c : N) : list N :=
  if (c =? 107) || (c =? 75) || (c =? 8490) then [107; 75; 8490]         (* k K Kelvin sign *)
  else if (c =? 115) || (c =? 83) || (c =? 383) then [115; 83; 383]      (* s S long s *)
  else if in_rng 97 122 c then [c; c - 32]
  else if in_rng 65 90 c then [c; c + 32]
  else if (c =? 229) || (c =? 197) || (c =? 8491) then [229; 197; 8491]  (* a-ring, Angstrom sign *)
  else if (c =? 223) || (c =? 7838) then [223; 7838]
  else if (c =? 255) || (c =? 376) then [255; 376]
  else if (c =? 181) || (c =? 924) || (c =? 956) then [181; 924; 956]
  else if in_rng 224 254 c && negb (c =? 247) then [c; c - 32]
  else if in_rng 192 222 c && negb (c =? 215) then [c; c + 32]
  else if (c =? 1074) || (c =? 1042) || (c =? 7296) then [1074; 1042; 7296]
  else if (c =? 1076) || (c =? 1044) || (c =? 7297) then [1076; 1044; 7297]
  else if (c =? 1086) || (c =? 1054) || (c =? 7298) then [1086; 1054; 7298]
  else if (c =? 1089) || (c =? 1057) || (c =? 7299) then [1089; 1057; 7299]
  else if (c =? 1090) || (c =? 1058) || (c =? 7300) || (c =? 7301) then [1090; 1058; 7300; 7301]
  else if (c =? 1098) || (c =? 1066) || (c =? 7302) then [1098; 1066; 7302]
  else if in_rng 1072 1103 c then [c; c - 32]
  else if in_rng 1040 1071 c then [c; c + 32]
  else if in_rng 65345 65370 c then [c; c - 32]
  else if in_rng 65313 65338 c then [c; c + 32]
  else [c].

Definition items_match (l : list citem) (c : N) : bool := existsb (fun i => citem_match i c) l.

(** A class under (?i) contains a rune iff it contains some member of its orbit; negation comes last. *)
Definition cls_match (k : cls) (c : N) : bool :=
  let pos := if cfold k then existsb (items_match (citems k)) (fold_orbit c) else items_match (citems k) c in
  if cneg k then negb pos else pos.

(** * Matching *)

(** Captures: most recent first. Group n -> (start, end) byte offsets. *)
Definition caps := list (nat * (nat * nat)).

(** Continuation: called with the position, the rest of the text and the captures so far. *)
Definition cont := nat -> bytes -> caps -> option (nat * caps).

(** Backtracking matcher in continuation-passing style; alternatives are tried in priority order. [pos] is the
    absolute byte offset of [s] in the searched text. A star iteration must consume input (Go's automaton likewise
    cannot loop on empty); the fuel of the loop is the number of remaining bytes plus one, which cannot run out. *)
Fixpoint rmatch (r : regex) (k : cont) (pos : nat) (s : bytes) (cs : caps) {struct r} : option (nat * caps) :=
  match r with
  | REmpty => k pos s cs
  | RClass c =>
      match decode_rune s with
      | Some (x, t) => if cls_match c x then k (pos + (len s - len t))%nat t cs else None
      | None => None
      end
  | RCat a b => rmatch a (fun p' s' cs' => rmatch b k p' s' cs') pos s cs
  | RAlt a b =>
      match rmatch a k pos s cs with
      | Some x => Some x
      | None => rmatch b k pos s cs
      end
  | RStar greedy a =>
      (fix loop (fuel : nat) (pos : nat) (s : bytes) (cs : caps) {struct fuel} : option (nat * caps) :=
         match fuel with
         | O => None
         | S f =>
             let more (_ : unit) :=
               rmatch a (fun p' s' cs' => if (len s' <? len s)%nat then loop f p' s' cs' else None) pos s cs in
             if greedy
             then match more tt with Some x => Some x | None => k pos s cs end
             else match k pos s cs with Some x => Some x | None => more tt end
         end) (S (len s)) pos s cs
  | RGroup n a => rmatch a (fun p' s' cs' => k p' s' ((n, (pos, p')) :: cs')) pos s cs
  | RBegin => if (pos =? 0)%nat then k pos s cs else None
  | REnd => if is_empty s then k pos s cs else None
  end.

(** A match: offsets of the whole match and captures. *)
Record mres := { m_start : nat; m_end : nat; m_caps : caps }.

Definition final : cont := fun p _ cs => Some (p, cs).

(** Leftmost search starting at [pos]: try each rune boundary in turn. *)
Fixpoint search (fuel : nat) (r : regex) (pos : nat) (s : bytes) : option mres :=
  match rmatch r final pos s [] with
  | Some (e, cs) => Some {| m_start := pos; m_end := e; m_caps := cs |}
  | None =>
      match fuel with
      | O => None
      | S f => match decode_rune s with
               | None => None
               | Some (_, t) => search f r (pos + (len s - len t)) t
               end
      end
  end.

(** regexp.doExecute from offset [pos] of [s]. *)
Definition find_from (x : re) (s : bytes) (pos : nat) : option mres :=
  search (len s - pos) (re_ast x) pos (skipn pos s).

(** FindStringIndex / FindStringSubmatchIndex *)
Definition re_find (x : re) (s : bytes) : option mres := find_from x s 0.

(** MatchString *)
Definition re_match (x : re) (s : bytes) : bool := is_some (re_find x s).

(** Group n of a match ([None]: did not participate). Group 0 is the whole match. *)
Definition group (m : mres) (n : nat) : option (nat * nat) :=
  match n with
  | O => Some (m_start m, m_end m)
  | _ => assoc Nat.eqb n (m_caps m)
  end.
Definition group_str (s : bytes) (m : mres) (n : nat) : bytes :=
  match group m n with Some (i, j) => sub s i j | None => [] end.

(** FindString *)
Definition re_find_string (x : re) (s : bytes) : bytes :=
  match re_find x s with Some m => sub s (m_start m) (m_end m) | None => [] end.

(** Width of the rune at offset pos (0 at the end): utf8.DecodeRuneInString. *)
Definition rune_width_at (s : bytes) (pos : nat) : nat :=
  let t := skipn pos s in
  match decode_rune t with Some (_, u) => (len t - len u)%nat | None => 0%nat end.

(** regexp.go, allMatches. *)
Fixpoint all_matches (fuel : nat) (x : re) (s : bytes) (pos : nat) (prev_end : option nat) : list mres :=
  match fuel with
  | O => []
  | S f =>
      if (len s <? pos)%nat then [] else
      match find_from x s pos with
      | None => []
      | Some m =>
          let empty_here := (m_end m =? pos)%nat in
          let accept := negb (empty_here && match prev_end with Some e => (m_start m =? e)%nat | None => false end) in
          let w := rune_width_at s pos in
          let pos' := if empty_here then (if (0 <? w)%nat then (pos + w)%nat else S (len s)) else m_end m in
          (if accept then [m] else []) ++ all_matches f x s pos' (Some (m_end m))
      end
  end.
Definition re_find_all (x : re) (s : bytes) : list mres := all_matches (S (S (len s))) x s 0 None.
Definition re_find_all_string (x : re) (s : bytes) : list bytes :=
  map (fun m => sub s (m_start m) (m_end m)) (re_find_all x s).

(** regexp.go, replaceAll with a replacement computed from each match. *)
Fixpoint replace_loop (fuel : nat) (x : re) (s : bytes) (repl : mres -> bytes)
    (last_end search_pos : nat) : bytes :=
  match fuel with
  | O => skipn last_end s
  | S f =>
      if (len s <? search_pos)%nat then skipn last_end s else
      match find_from x s search_pos with
      | None => skipn last_end s
      | Some m =>
          let before := sub s last_end (m_start m) in
          let rep := if (last_end <? m_end m)%nat || (m_start m =? 0)%nat then repl m else [] in
          let w := rune_width_at s search_pos in
          let pos' := if (m_end m <? search_pos + w)%nat then (search_pos + w)%nat
                      else if (m_end m <? search_pos + 1)%nat then (search_pos + 1)%nat
                      else m_end m in
          before ++ rep ++ replace_loop f x s repl (m_end m) pos'
      end
  end.
Definition re_replace_func (x : re) (s : bytes) (repl : mres -> bytes) : bytes :=
  replace_loop (S (S (len s))) x s repl 0 0.

(** ReplaceAllLiteralString *)
Definition re_replace_literal (x : re) (s repl : bytes) : bytes := re_replace_func x s (fun _ => repl).

(** regexp.go, extract: the name after a '$' and what follows it. *)
Definition is_name_rune (c : N) : bool := is_L c || is_Nd c || (c =? 95).
Fixpoint name_len (fuel : nat) (s : bytes) : nat :=
  match fuel with
  | O => 0%nat
  | S f => match decode_rune s with
           | Some (c, t) => if is_name_rune c then ((len s - len t) + name_len f t)%nat else 0%nat
           | None => 0%nat
           end
  end.
(** Group number denoted by a name, [None] for a named group (there are none in the repository). *)
Definition name_num (name : bytes) : option nat :=
  if all_digits name && negb (match name with 48 :: _ :: _ => true | _ => false end)
  then (if dval name <? 100000000 then Some (N.to_nat (dval name)) else None)
  else None.
(** Result of [extract]: group number (or None) and rest; outer None: malformed. *)
Definition extract_ref (s : bytes) : option (option nat * bytes) :=
  match s with
  | [] => None
  | 123 :: s' =>
      let i := name_len (len s') s' in
      if (i =? 0)%nat then None else
      match skipn i s' with
      | 125 :: rest => Some (name_num (firstn i s'), rest)
      | _ => None
      end
  | _ =>
      let i := name_len (len s) s in
      if (i =? 0)%nat then None else Some (name_num (firstn i s), skipn i s)
  end.

(** regexp.go, expand: template with $1, ${1}, $$. *)
Fixpoint expand (fuel : nat) (tmpl s : bytes) (m : mres) : bytes :=
  match fuel with
  | O => []
  | S f =>
      match tmpl with
      | [] => []
      | 36 :: t =>
          match t with
          | 36 :: t' => 36 :: expand f t' s m
          | _ =>
              match extract_ref t with
              | None => 36 :: expand f t s m
              | Some (Some n, rest) => group_str s m n ++ expand f rest s m
              | Some (None, rest) => expand f rest s m
              end
          end
      | c :: t => c :: expand f t s m
      end
  end.
Definition expand_template (tmpl s : bytes) (m : mres) : bytes := expand (S (len tmpl)) tmpl s m.

(** ReplaceAllString *)
Definition re_replace_all (x : re) (s tmpl : bytes) : bytes :=
  re_replace_func x s (fun m => expand_template tmpl s m).

(** Split(s, -1) *)
Definition re_split (x : re) (s : bytes) : list bytes :=
  match s with
  | [] => [[]]
  | _ =>
      let fix go (ms : list mres) (beg last_end : nat) : list bytes :=
        match ms with
        | [] => if (last_end =? len s)%nat then [] else [skipn beg s]
        | m :: ms' =>
            (if (m_end m =? 0)%nat then [] else [sub s beg (m_start m)]) ++ go ms' (m_end m) (m_start m)
        end in
      go (re_find_all x s) 0%nat 0%nat
  end.

(** * Parsing of pattern strings (regexp/syntax) *)

Definition lit (fold : bool) (c : N) : regex := RClass {| cneg := false; citems := [CR c c]; cfold := fold |}.
Definition any_not_nl : cls := {| cneg := true; citems := [CR 10 10]; cfold := false |}.
Definition d_items : list citem := [CR 48 57].
Definition s_items : list citem := [CR 9 10; CR 12 13; CR 32 32].   (* \s = [\t\n\f\r ] *)

(** x{n} desugared, as Go's simplifier does: x...x; x{n,m} = x..x(x(x)?)?; x{n,} = x...x x*. *)
Fixpoint rep_n (n : nat) (r tail : regex) : regex :=
  match n with O => tail | S n' => RCat r (rep_n n' r tail) end.
Fixpoint rep_opt (n : nat) (greedy : bool) (r : regex) : regex :=
  match n with
  | O => REmpty
  | S n' => let body := RCat r (rep_opt n' greedy r) in
            if greedy then RAlt body REmpty else RAlt REmpty body
  end.
Definition repeat_re (mn : nat) (mx : option nat) (greedy : bool) (r : regex) : regex :=
  match mx with
  | None => rep_n mn r (RStar greedy r)
  | Some m => rep_n mn r (rep_opt (m - mn) greedy r)
  end.

(** Decimal number at the head of a rune list (regexp/syntax parseInt): at least one digit; leading zeros are not
    allowed; values above 1000 make the repetition an error, modelled by the caller. *)
Fixpoint take_digits (s : list N) : list N * list N :=
  match s with
  | c :: t => if is_digit c then let '(d, r) := take_digits t in (c :: d, r) else ([], s)
  | [] => ([], [])
  end.
Definition parse_int (s : list N) : option (nat * list N) :=
  match take_digits s with
  | ([], _) => None
  | (48 :: _ :: _, _) => None
  | (ds, r) => if dval ds <=? 1000 then Some (N.to_nat (dval ds), r) else None
  end.

(** {n}, {n,}, {n,m} after the opening brace; None: not a repetition (then '{' is a literal in Go). *)
Definition parse_repeat (s : list N) : option (nat * option nat * list N) :=
  match parse_int s with
  | None => None
  | Some (n, 125 :: r) => Some (n, Some n, r)
  | Some (n, 44 :: 125 :: r) => Some (n, None, r)
  | Some (n, 44 :: r) =>
      match parse_int r with
      | Some (m, 125 :: r') => if (n <=? m)%nat then Some (n, Some m, r') else None
      | _ => None
      end
  | Some _ => None
  end.

(** \p{Nd}, \p{N}, \p{L}, \p{Z} after the 'p' or 'P'. *)
Definition parse_ucat (s : list N) : option (ucat * list N) :=
  match s with
  | 123 :: 78 :: 100 :: 125 :: r => Some (UNd, r)
  | 123 :: 78 :: 125 :: r => Some (UN, r)
  | 123 :: 76 :: 125 :: r => Some (UL, r)
  | 123 :: 90 :: 125 :: r => Some (UZ, r)
  | _ => None
  end.

Definition is_ascii_punct (c : N) : bool :=
  in_rng 33 47 c || in_rng 58 64 c || in_rng 91 96 c || in_rng 123 126 c.

(** A single escaped character after the backslash: punctuation stands for itself; \t \n \f \r. *)
Definition parse_escape_char (c : N) : option N :=
  if is_ascii_punct c then Some c
  else if c =? 116 then Some 9
  else if c =? 110 then Some 10
  else if c =? 102 then Some 12
  else if c =? 114 then Some 13
  else None.

(** One (possibly escaped) character inside a bracket expression. *)
Definition parse_class_char (s : list N) : option (N * list N) :=
  match s with
  | 92 :: c :: r => match parse_escape_char c with Some x => Some (x, r) | None => None end
  | 92 :: [] => None
  | c :: r => Some (c, r)
  | [] => None
  end.

(** Items of a bracket expression up to the closing bracket; [first] allows a literal ']'. *)
Fixpoint parse_class_items (fuel : nat) (first : bool) (s : list N) : option (list citem * list N) :=
  match fuel with
  | O => None
  | S f =>
      match s with
      | [] => None
      | 93 :: r => if first then parse_range f s else Some ([], r)
      | 92 :: 100 :: r => add_items f d_items r
      | 92 :: 115 :: r => add_items f s_items r
      | 92 :: 112 :: r => match parse_ucat r with Some (u, r') => add_items f [CU u] r' | None => None end
      | 92 :: 80 :: r => match parse_ucat r with Some (u, r') => add_items f [CUneg u] r' | None => None end
      | 91 :: 58 :: _ => None      (* [:name:] is not used by the repository *)
      | _ => parse_range f s
      end
  end
with add_items (fuel : nat) (l : list citem) (s : list N) : option (list citem * list N) :=
  match fuel with
  | O => None
  | S f => match parse_class_items f false s with Some (l', r) => Some (l ++ l', r) | None => None end
  end
with parse_range (fuel : nat) (s : list N) : option (list citem * list N) :=
  match fuel with
  | O => None
  | S f =>
      match parse_class_char s with
      | None => None
      | Some (lo, r) =>
          match r with
          | 45 :: 93 :: _ => add_items f [CR lo lo] r
          | 45 :: (_ :: _) as r' =>
              match parse_class_char (tl r) with
              | Some (hi, r'') => if lo <=? hi then add_items f [CR lo hi] r'' else None
              | None => None
              end
          | _ => add_items f [CR lo lo] r
          end
      end
  end.

Definition parse_class (fold : bool) (s : list N) : option (regex * list N) :=
  let fuel := (4 * List.length s + 4)%nat in
  match s with
  | 94 :: r =>
      match parse_class_items fuel true r with
      | Some (l, r') => Some (RClass {| cneg := true; citems := l; cfold := fold |}, r')
      | None => None
      end
  | _ =>
      match parse_class_items fuel true s with
      | Some (l, r') => Some (RClass {| cneg := false; citems := l; cfold := fold |}, r')
      | None => None
      end
  end.

(** Postfix operators. After one operator (with optional '?'), another one is an error in Go. *)
Definition starts_rep (s : list N) : bool :=
  match s with
  | 42 :: _ | 43 :: _ | 63 :: _ => true
  | 123 :: r => is_some (parse_repeat r)
  | _ => false
  end.
Definition apply_rep (r : regex) (s : list N) : option (regex * list N) :=
  let finish mn mx s' :=
    match s' with
    | 63 :: s'' => if starts_rep s'' then None else Some (repeat_re mn mx false r, s'')
    | _ => if starts_rep s' then None else Some (repeat_re mn mx true r, s')
    end in
  match s with
  | 42 :: s' => finish 0%nat None s'
  | 43 :: s' => finish 1%nat None s'
  | 63 :: s' => finish 0%nat (Some 1%nat) s'
  | 123 :: s' => match parse_repeat s' with
                 | Some (mn, mx, s'') => finish mn mx s''
                 | None => Some (r, s)
                 end
  | _ => Some (r, s)
  end.

(** Alternation / concatenation / atoms. [g] is the next group number. *)
Fixpoint parse_alt (fuel : nat) (fold : bool) (g : nat) (s : list N) : option (regex * nat * list N) :=
  match fuel with
  | O => None
  | S f =>
      match parse_cat f fold g s with
      | None => None
      | Some (r, g', 124 :: s') =>
          match parse_alt f fold g' s' with
          | Some (r2, g2, s2) => Some (RAlt r r2, g2, s2)
          | None => None
          end
      | Some (r, g', s') => Some (r, g', s')
      end
  end
with parse_cat (fuel : nat) (fold : bool) (g : nat) (s : list N) : option (regex * nat * list N) :=
  match fuel with
  | O => None
  | S f =>
      match s with
      | [] => Some (REmpty, g, [])
      | 124 :: _ => Some (REmpty, g, s)
      | 41 :: _ => Some (REmpty, g, s)
      | _ =>
          match parse_atom f fold g s with
          | None => None
          | Some (a, g', s') =>
              match apply_rep a s' with
              | None => None
              | Some (a', s'') =>
                  match parse_cat f fold g' s'' with
                  | Some (REmpty, g2, s2) => Some (a', g2, s2)
                  | Some (r2, g2, s2) => Some (RCat a' r2, g2, s2)
                  | None => None
                  end
              end
          end
      end
  end
with parse_atom (fuel : nat) (fold : bool) (g : nat) (s : list N) : option (regex * nat * list N) :=
  match fuel with
  | O => None
  | S f =>
      match s with
      | [] => None
      | 94 :: r => Some (RBegin, g, r)
      | 36 :: r => Some (REnd, g, r)
      | 46 :: r => Some (RClass any_not_nl, g, r)
      | 42 :: _ | 43 :: _ | 63 :: _ => None          (* missing argument to repetition operator *)
      | 40 :: 63 :: 58 :: r =>
          match parse_alt f fold g r with
          | Some (a, g', 41 :: r') => Some (a, g', r')
          | _ => None
          end
      | 40 :: 63 :: _ => None                         (* other group flags: not used inside patterns *)
      | 40 :: r =>
          match parse_alt f fold (S g) r with
          | Some (a, g', 41 :: r') => Some (RGroup g a, g', r')
          | _ => None
          end
      | 91 :: r => match parse_class fold r with Some (a, r') => Some (a, g, r') | None => None end
      | 92 :: 100 :: r => Some (RClass {| cneg := false; citems := d_items; cfold := false |}, g, r)
      | 92 :: 68 :: r => Some (RClass {| cneg := true; citems := d_items; cfold := false |}, g, r)
      | 92 :: 115 :: r => Some (RClass {| cneg := false; citems := s_items; cfold := false |}, g, r)
      | 92 :: 112 :: r =>
          match parse_ucat r with
          | Some (u, r') => Some (RClass {| cneg := false; citems := [CU u]; cfold := false |}, g, r')
          | None => None end
      | 92 :: 80 :: r =>
          match parse_ucat r with
          | Some (u, r') => Some (RClass {| cneg := false; citems := [CUneg u]; cfold := false |}, g, r')
          | None => None end
      | 92 :: c :: r => match parse_escape_char c with Some x => Some (lit fold x, g, r) | None => None end
      | 92 :: [] => None
      | c :: r => Some (lit fold c, g, r)
      end
  end.

(** regexp.Compile for the supported subset; [None] is a compile error (or a construct outside the subset, none of
    which occurs in the repository). *)
Definition compile (p : bytes) : option re :=
  let rs := runes p in
  let '(fold, body) := match rs with
                       | 40 :: 63 :: 105 :: 41 :: r => (true, r)     (* (?i) *)
                       | _ => (false, rs)
                       end in
  match parse_alt (4 * List.length body + 8) fold 1 body with
  | Some (r, g, []) => Some {| re_ast := r; re_ngroups := (g - 1)%nat |}
  | _ => None
  end.

(** regexp.MustCompile / internal/regexcache For: panics on a bad pattern (regexcache.go:34-43; that the cache is
    transparent is property C36). *)
Definition must_compile (p : bytes) : M re := or_panic (compile p).
