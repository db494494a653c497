(** Generated by gen/matcher_tests.py from phonenumbermatcher_test.go of the repository: DO NOT EDIT.
    The repository's own matcher tests evaluated on the model (fidelity evidence, not properties). *)
From Verif Require Import Base Types Parse Validate Matcher AltData Shipped TestXml ConformanceBase.

Definition A : alt_map := alt_map_of alt_collection.
Definition M0 text region l := newPhoneNumberMatcher text region l max_int.
(* the first match starts at [start] and reads [raw] *)
Definition first_is (c : leniency * bytes * bytes * nat * bytes) : bool :=
  let '(l, text, region, start, raw) := c in
  match next test_container A (M0 text region l) with
  | Ret (_, Some p) => Nat.eqb (pm_start p) start && beq (pm_raw p) raw
  | _ => false
  end.
Definition none_found (c : leniency * bytes * bytes) : bool :=
  let '(l, text, region) := c in
  match hasNext test_container A (M0 text region l) with Ret (_, false) => true | _ => false end.
(* every match found has this raw text and equals the parsed raw text *)
Definition all_are (c : leniency * bytes * bytes * list (nat * bytes)) : bool :=
  let '(l, text, region, raws) := c in
  match FindNumbersWithLeniency test_container A text region l max_int (fun _ => true) with
  | Ret (ms, _) =>
      Nat.eqb (List.length ms) (List.length raws) &&
      forallb (fun mr => match mr with
                         | (Some p, (s, r)) =>
                             beq (pm_raw p) r && Nat.eqb (pm_start p) s &&
                             match Parse test_container r region with
                             | Ret (n, None) => phone_full_eqb n (pm_number p)
                             | _ => false
                             end
                         | _ => false
                         end) (combine ms raws)
  | _ => false
  end.

Lemma TestMatchesWithPossibleLeniency_0 : forallb first_is [(POSSIBLE, (bs "(415) 6667777"), (bs "US"), 0%nat, (bs "(415) 6667777"));
  (POSSIBLE, (bs "415-6667777"), (bs "US"), 0%nat, (bs "415-6667777"));
  (POSSIBLE, (bs "0800-2491234"), (bs "DE"), 0%nat, (bs "0800-2491234"));
  (POSSIBLE, (bs "0900-1 123123"), (bs "DE"), 0%nat, (bs "0900-1 123123"));
  (POSSIBLE, (bs "(0)900-1 123123"), (bs "DE"), 0%nat, (bs "(0)900-1 123123"));
  (POSSIBLE, (bs "0 900-1 123123"), (bs "DE"), 0%nat, (bs "0 900-1 123123"));
  (POSSIBLE, (bs "+33 3 34 2312"), (bs "FR"), 0%nat, (bs "+33 3 34 2312"));
  (POSSIBLE, [239; 188; 148; 239; 188; 145; 239; 188; 149; 239; 188; 150; 239; 188; 150; 239; 188; 150; 239; 188; 151; 239; 188; 151; 239; 188; 151; 239; 188; 151], (bs "US"), 0%nat, [239; 188; 148; 239; 188; 145; 239; 188; 149; 239; 188; 150; 239; 188; 150; 239; 188; 150; 239; 188; 151; 239; 188; 151; 239; 188; 151; 239; 188; 151]);
  (POSSIBLE, [239; 188; 148; 239; 188; 145; 239; 188; 149; 45; 239; 188; 150; 239; 188; 150; 239; 188; 150; 45; 239; 188; 151; 239; 188; 151; 239; 188; 151; 239; 188; 151], (bs "US"), 0%nat, [239; 188; 148; 239; 188; 145; 239; 188; 149; 45; 239; 188; 150; 239; 188; 150; 239; 188; 150; 45; 239; 188; 151; 239; 188; 151; 239; 188; 151; 239; 188; 151]);
  (POSSIBLE, (bs "4156667777"), (bs "US"), 0%nat, (bs "4156667777"));
  (POSSIBLE, (bs "4156667777 x 123"), (bs "US"), 0%nat, (bs "4156667777 x 123"));
  (POSSIBLE, (bs "415-666-7777"), (bs "US"), 0%nat, (bs "415-666-7777"));
  (POSSIBLE, (bs "415/666-7777"), (bs "US"), 0%nat, (bs "415/666-7777"));
  (POSSIBLE, (bs "415-666-7777 ext. 503"), (bs "US"), 0%nat, (bs "415-666-7777 ext. 503"));
  (POSSIBLE, (bs "1 415 666 7777 x 123"), (bs "US"), 0%nat, (bs "1 415 666 7777 x 123"));
  (POSSIBLE, (bs "+1 415-666-7777"), (bs "US"), 0%nat, (bs "+1 415-666-7777"));
  (POSSIBLE, (bs "+494949 49"), (bs "DE"), 0%nat, (bs "+494949 49"));
  (POSSIBLE, (bs "+49-49-34"), (bs "DE"), 0%nat, (bs "+49-49-34"));
  (POSSIBLE, (bs "+49-4931-49"), (bs "DE"), 0%nat, (bs "+49-4931-49"));
  (POSSIBLE, (bs "04931-49"), (bs "DE"), 0%nat, (bs "04931-49"));
  (POSSIBLE, (bs "+49-494949"), (bs "DE"), 0%nat, (bs "+49-494949"));
  (POSSIBLE, (bs "+49-494949 ext. 49"), (bs "DE"), 0%nat, (bs "+49-494949 ext. 49"));
  (POSSIBLE, (bs "+49494949 ext. 49"), (bs "DE"), 0%nat, (bs "+49494949 ext. 49"));
  (POSSIBLE, (bs "0494949"), (bs "DE"), 0%nat, (bs "0494949"));
  (POSSIBLE, (bs "0494949 ext. 49"), (bs "DE"), 0%nat, (bs "0494949 ext. 49"));
  (POSSIBLE, (bs "01 (33) 3461 2234"), (bs "MX"), 0%nat, (bs "01 (33) 3461 2234"));
  (POSSIBLE, (bs "(33) 3461 2234"), (bs "MX"), 0%nat, (bs "(33) 3461 2234"));
  (POSSIBLE, (bs "1800-10-10 22"), (bs "AU"), 0%nat, (bs "1800-10-10 22"));
  (POSSIBLE, (bs "0900-1 123 123"), (bs "DE"), 0%nat, (bs "0900-1 123 123"));
  (POSSIBLE, (bs "(0)900-1 123 123"), (bs "DE"), 0%nat, (bs "(0)900-1 123 123"));
  (POSSIBLE, (bs "0 900-1 123 123"), (bs "DE"), 0%nat, (bs "0 900-1 123 123"));
  (POSSIBLE, (bs "+33 3 34 23 12"), (bs "FR"), 0%nat, (bs "+33 3 34 23 12"));
  (POSSIBLE, (bs "65 02 53 00 00"), (bs "US"), 0%nat, (bs "65 02 53 00 00"));
  (POSSIBLE, (bs "6502 538365"), (bs "US"), 0%nat, (bs "6502 538365"));
  (POSSIBLE, (bs "650//253-1234"), (bs "US"), 0%nat, (bs "650//253-1234"));
  (POSSIBLE, (bs "650/253/1234"), (bs "US"), 0%nat, (bs "650/253/1234"));
  (POSSIBLE, (bs "9002309. 158"), (bs "US"), 0%nat, (bs "9002309. 158"));
  (POSSIBLE, (bs "12 7/8 - 14 12/34 - 5"), (bs "US"), 0%nat, (bs "12 7/8 - 14 12/34 - 5"));
  (POSSIBLE, (bs "12.1 - 23.71 - 23.45"), (bs "US"), 0%nat, (bs "12.1 - 23.71 - 23.45"));
  (POSSIBLE, (bs "800 234 1 111x1111"), (bs "US"), 0%nat, (bs "800 234 1 111x1111"))] = true.
Proof. vm_cast_no_check (eq_refl true). Qed.

Lemma TestMatchesWithPossibleLeniency_1 : forallb first_is [(POSSIBLE, (bs "1979-2011 100"), (bs "US"), 0%nat, (bs "1979-2011 100"));
  (POSSIBLE, (bs "+494949-4-94"), (bs "DE"), 0%nat, (bs "+494949-4-94"));
  (POSSIBLE, [239; 188; 148; 239; 188; 145; 239; 188; 149; 239; 188; 150; 239; 188; 150; 239; 188; 150; 239; 188; 150; 45; 239; 188; 151; 239; 188; 151; 239; 188; 151], (bs "US"), 0%nat, [239; 188; 148; 239; 188; 145; 239; 188; 149; 239; 188; 150; 239; 188; 150; 239; 188; 150; 239; 188; 150; 45; 239; 188; 151; 239; 188; 151; 239; 188; 151]);
  (POSSIBLE, (bs "2012-0102 08"), (bs "US"), 0%nat, (bs "2012-0102 08"));
  (POSSIBLE, (bs "2012-01-02 08"), (bs "US"), 0%nat, (bs "2012-01-02 08"));
  (POSSIBLE, (bs "1800-1-0-10 22"), (bs "AU"), 0%nat, (bs "1800-1-0-10 22"));
  (POSSIBLE, (bs "030-3-2 23 12 34"), (bs "DE"), 0%nat, (bs "030-3-2 23 12 34"));
  (POSSIBLE, (bs "03 0 -3 2 23 12 34"), (bs "DE"), 0%nat, (bs "03 0 -3 2 23 12 34"));
  (POSSIBLE, (bs "(0)3 0 -3 2 23 12 34"), (bs "DE"), 0%nat, (bs "(0)3 0 -3 2 23 12 34"));
  (POSSIBLE, (bs "0 3 0 -3 2 23 12 34"), (bs "DE"), 0%nat, (bs "0 3 0 -3 2 23 12 34"));
  (POSSIBLE, (bs "+52 332 123 23 23"), (bs "MX"), 0%nat, (bs "+52 332 123 23 23"));
  (POSSIBLE, (bs "7121115678"), (bs "US"), 0%nat, (bs "7121115678"));
  (POSSIBLE, (bs "1650 x 253 - 1234"), (bs "US"), 0%nat, (bs "1650 x 253 - 1234"));
  (POSSIBLE, (bs "650 x 253 - 1234"), (bs "US"), 0%nat, (bs "650 x 253 - 1234"));
  (POSSIBLE, (bs "6502531x234"), (bs "US"), 0%nat, (bs "6502531x234"));
  (POSSIBLE, (bs "(20) 3346 1234"), (bs "GB"), 0%nat, (bs "(20) 3346 1234"))] = true.
Proof. vm_cast_no_check (eq_refl true). Qed.

Lemma TestNonMatchesWithPossibleLeniency_0 : forallb none_found [(POSSIBLE, (bs "12345"), (bs "US"));
  (POSSIBLE, (bs "23456789"), (bs "US"));
  (POSSIBLE, (bs "234567890112"), (bs "US"));
  (POSSIBLE, (bs "650+253+1234"), (bs "US"));
  (POSSIBLE, (bs "3/10/1984"), (bs "CA"));
  (POSSIBLE, (bs "03/27/2011"), (bs "US"));
  (POSSIBLE, (bs "31/8/2011"), (bs "US"));
  (POSSIBLE, (bs "1/12/2011"), (bs "US"));
  (POSSIBLE, (bs "10/12/82"), (bs "DE"));
  (POSSIBLE, (bs "650x2531234"), (bs "US"));
  (POSSIBLE, (bs "2012-01-02 08:00"), (bs "US"));
  (POSSIBLE, (bs "2012/01/02 08:00"), (bs "US"));
  (POSSIBLE, (bs "20120102 08:00"), (bs "US"));
  (POSSIBLE, (bs "2014-04-12 04:04 PM"), (bs "US"));
  (POSSIBLE, (bs "2014-04-12 &nbsp;04:04 PM"), (bs "US"));
  (POSSIBLE, (bs "2014-04-12 &nbsp;04:04 PM"), (bs "US"));
  (POSSIBLE, (bs "2014-04-12  04:04 PM"), (bs "US"))] = true.
Proof. vm_cast_no_check (eq_refl true). Qed.

Lemma TestMatchesWithValidLeniency_0 : forallb first_is [(VALID, (bs "(415) 6667777"), (bs "US"), 0%nat, (bs "(415) 6667777"));
  (VALID, (bs "415-6667777"), (bs "US"), 0%nat, (bs "415-6667777"));
  (VALID, (bs "0800-2491234"), (bs "DE"), 0%nat, (bs "0800-2491234"));
  (VALID, (bs "0900-1 123123"), (bs "DE"), 0%nat, (bs "0900-1 123123"));
  (VALID, (bs "(0)900-1 123123"), (bs "DE"), 0%nat, (bs "(0)900-1 123123"));
  (VALID, (bs "0 900-1 123123"), (bs "DE"), 0%nat, (bs "0 900-1 123123"));
  (VALID, (bs "+33 3 34 2312"), (bs "FR"), 0%nat, (bs "+33 3 34 2312"));
  (VALID, [239; 188; 148; 239; 188; 145; 239; 188; 149; 239; 188; 150; 239; 188; 150; 239; 188; 150; 239; 188; 151; 239; 188; 151; 239; 188; 151; 239; 188; 151], (bs "US"), 0%nat, [239; 188; 148; 239; 188; 145; 239; 188; 149; 239; 188; 150; 239; 188; 150; 239; 188; 150; 239; 188; 151; 239; 188; 151; 239; 188; 151; 239; 188; 151]);
  (VALID, [239; 188; 148; 239; 188; 145; 239; 188; 149; 45; 239; 188; 150; 239; 188; 150; 239; 188; 150; 45; 239; 188; 151; 239; 188; 151; 239; 188; 151; 239; 188; 151], (bs "US"), 0%nat, [239; 188; 148; 239; 188; 145; 239; 188; 149; 45; 239; 188; 150; 239; 188; 150; 239; 188; 150; 45; 239; 188; 151; 239; 188; 151; 239; 188; 151; 239; 188; 151]);
  (VALID, (bs "4156667777"), (bs "US"), 0%nat, (bs "4156667777"));
  (VALID, (bs "4156667777 x 123"), (bs "US"), 0%nat, (bs "4156667777 x 123"));
  (VALID, (bs "415-666-7777"), (bs "US"), 0%nat, (bs "415-666-7777"));
  (VALID, (bs "415/666-7777"), (bs "US"), 0%nat, (bs "415/666-7777"));
  (VALID, (bs "415-666-7777 ext. 503"), (bs "US"), 0%nat, (bs "415-666-7777 ext. 503"));
  (VALID, (bs "1 415 666 7777 x 123"), (bs "US"), 0%nat, (bs "1 415 666 7777 x 123"));
  (VALID, (bs "+1 415-666-7777"), (bs "US"), 0%nat, (bs "+1 415-666-7777"));
  (VALID, (bs "+494949 49"), (bs "DE"), 0%nat, (bs "+494949 49"));
  (VALID, (bs "+49-49-34"), (bs "DE"), 0%nat, (bs "+49-49-34"));
  (VALID, (bs "+49-4931-49"), (bs "DE"), 0%nat, (bs "+49-4931-49"));
  (VALID, (bs "04931-49"), (bs "DE"), 0%nat, (bs "04931-49"));
  (VALID, (bs "+49-494949"), (bs "DE"), 0%nat, (bs "+49-494949"));
  (VALID, (bs "+49-494949 ext. 49"), (bs "DE"), 0%nat, (bs "+49-494949 ext. 49"));
  (VALID, (bs "+49494949 ext. 49"), (bs "DE"), 0%nat, (bs "+49494949 ext. 49"));
  (VALID, (bs "0494949"), (bs "DE"), 0%nat, (bs "0494949"));
  (VALID, (bs "0494949 ext. 49"), (bs "DE"), 0%nat, (bs "0494949 ext. 49"));
  (VALID, (bs "01 (33) 3461 2234"), (bs "MX"), 0%nat, (bs "01 (33) 3461 2234"));
  (VALID, (bs "(33) 3461 2234"), (bs "MX"), 0%nat, (bs "(33) 3461 2234"));
  (VALID, (bs "1800-10-10 22"), (bs "AU"), 0%nat, (bs "1800-10-10 22"));
  (VALID, (bs "0900-1 123 123"), (bs "DE"), 0%nat, (bs "0900-1 123 123"));
  (VALID, (bs "(0)900-1 123 123"), (bs "DE"), 0%nat, (bs "(0)900-1 123 123"));
  (VALID, (bs "0 900-1 123 123"), (bs "DE"), 0%nat, (bs "0 900-1 123 123"));
  (VALID, (bs "+33 3 34 23 12"), (bs "FR"), 0%nat, (bs "+33 3 34 23 12"));
  (VALID, (bs "65 02 53 00 00"), (bs "US"), 0%nat, (bs "65 02 53 00 00"));
  (VALID, (bs "6502 538365"), (bs "US"), 0%nat, (bs "6502 538365"));
  (VALID, (bs "650//253-1234"), (bs "US"), 0%nat, (bs "650//253-1234"));
  (VALID, (bs "650/253/1234"), (bs "US"), 0%nat, (bs "650/253/1234"));
  (VALID, (bs "9002309. 158"), (bs "US"), 0%nat, (bs "9002309. 158"));
  (VALID, (bs "12 7/8 - 14 12/34 - 5"), (bs "US"), 0%nat, (bs "12 7/8 - 14 12/34 - 5"));
  (VALID, (bs "12.1 - 23.71 - 23.45"), (bs "US"), 0%nat, (bs "12.1 - 23.71 - 23.45"));
  (VALID, (bs "800 234 1 111x1111"), (bs "US"), 0%nat, (bs "800 234 1 111x1111"))] = true.
Proof. vm_cast_no_check (eq_refl true). Qed.

Lemma TestMatchesWithValidLeniency_1 : forallb first_is [(VALID, (bs "1979-2011 100"), (bs "US"), 0%nat, (bs "1979-2011 100"));
  (VALID, (bs "+494949-4-94"), (bs "DE"), 0%nat, (bs "+494949-4-94"));
  (VALID, [239; 188; 148; 239; 188; 145; 239; 188; 149; 239; 188; 150; 239; 188; 150; 239; 188; 150; 239; 188; 150; 45; 239; 188; 151; 239; 188; 151; 239; 188; 151], (bs "US"), 0%nat, [239; 188; 148; 239; 188; 145; 239; 188; 149; 239; 188; 150; 239; 188; 150; 239; 188; 150; 239; 188; 150; 45; 239; 188; 151; 239; 188; 151; 239; 188; 151]);
  (VALID, (bs "2012-0102 08"), (bs "US"), 0%nat, (bs "2012-0102 08"));
  (VALID, (bs "2012-01-02 08"), (bs "US"), 0%nat, (bs "2012-01-02 08"));
  (VALID, (bs "1800-1-0-10 22"), (bs "AU"), 0%nat, (bs "1800-1-0-10 22"));
  (VALID, (bs "030-3-2 23 12 34"), (bs "DE"), 0%nat, (bs "030-3-2 23 12 34"));
  (VALID, (bs "03 0 -3 2 23 12 34"), (bs "DE"), 0%nat, (bs "03 0 -3 2 23 12 34"));
  (VALID, (bs "(0)3 0 -3 2 23 12 34"), (bs "DE"), 0%nat, (bs "(0)3 0 -3 2 23 12 34"));
  (VALID, (bs "0 3 0 -3 2 23 12 34"), (bs "DE"), 0%nat, (bs "0 3 0 -3 2 23 12 34"));
  (VALID, (bs "+52 332 123 23 23"), (bs "MX"), 0%nat, (bs "+52 332 123 23 23"))] = true.
Proof. vm_cast_no_check (eq_refl true). Qed.

Lemma TestNonMatchesWithValidLeniency_0 : forallb none_found [(VALID, (bs "12345"), (bs "US"));
  (VALID, (bs "23456789"), (bs "US"));
  (VALID, (bs "234567890112"), (bs "US"));
  (VALID, (bs "650+253+1234"), (bs "US"));
  (VALID, (bs "3/10/1984"), (bs "CA"));
  (VALID, (bs "03/27/2011"), (bs "US"));
  (VALID, (bs "31/8/2011"), (bs "US"));
  (VALID, (bs "1/12/2011"), (bs "US"));
  (VALID, (bs "10/12/82"), (bs "DE"));
  (VALID, (bs "650x2531234"), (bs "US"));
  (VALID, (bs "2012-01-02 08:00"), (bs "US"));
  (VALID, (bs "2012/01/02 08:00"), (bs "US"));
  (VALID, (bs "20120102 08:00"), (bs "US"));
  (VALID, (bs "2014-04-12 04:04 PM"), (bs "US"));
  (VALID, (bs "2014-04-12 &nbsp;04:04 PM"), (bs "US"));
  (VALID, (bs "2014-04-12 &nbsp;04:04 PM"), (bs "US"));
  (VALID, (bs "2014-04-12  04:04 PM"), (bs "US"));
  (VALID, (bs "7121115678"), (bs "US"));
  (VALID, (bs "1650 x 253 - 1234"), (bs "US"));
  (VALID, (bs "650 x 253 - 1234"), (bs "US"));
  (VALID, (bs "6502531x234"), (bs "US"));
  (VALID, (bs "(20) 3346 1234"), (bs "GB"))] = true.
Proof. vm_cast_no_check (eq_refl true). Qed.

Lemma TestMatchesWithStrictGroupingLeniency_0 : forallb first_is [(STRICT_GROUPING, (bs "(415) 6667777"), (bs "US"), 0%nat, (bs "(415) 6667777"));
  (STRICT_GROUPING, (bs "415-6667777"), (bs "US"), 0%nat, (bs "415-6667777"));
  (STRICT_GROUPING, (bs "0800-2491234"), (bs "DE"), 0%nat, (bs "0800-2491234"));
  (STRICT_GROUPING, (bs "0900-1 123123"), (bs "DE"), 0%nat, (bs "0900-1 123123"));
  (STRICT_GROUPING, (bs "(0)900-1 123123"), (bs "DE"), 0%nat, (bs "(0)900-1 123123"));
  (STRICT_GROUPING, (bs "0 900-1 123123"), (bs "DE"), 0%nat, (bs "0 900-1 123123"));
  (STRICT_GROUPING, (bs "+33 3 34 2312"), (bs "FR"), 0%nat, (bs "+33 3 34 2312"));
  (STRICT_GROUPING, [239; 188; 148; 239; 188; 145; 239; 188; 149; 239; 188; 150; 239; 188; 150; 239; 188; 150; 239; 188; 151; 239; 188; 151; 239; 188; 151; 239; 188; 151], (bs "US"), 0%nat, [239; 188; 148; 239; 188; 145; 239; 188; 149; 239; 188; 150; 239; 188; 150; 239; 188; 150; 239; 188; 151; 239; 188; 151; 239; 188; 151; 239; 188; 151]);
  (STRICT_GROUPING, [239; 188; 148; 239; 188; 145; 239; 188; 149; 45; 239; 188; 150; 239; 188; 150; 239; 188; 150; 45; 239; 188; 151; 239; 188; 151; 239; 188; 151; 239; 188; 151], (bs "US"), 0%nat, [239; 188; 148; 239; 188; 145; 239; 188; 149; 45; 239; 188; 150; 239; 188; 150; 239; 188; 150; 45; 239; 188; 151; 239; 188; 151; 239; 188; 151; 239; 188; 151]);
  (STRICT_GROUPING, (bs "4156667777"), (bs "US"), 0%nat, (bs "4156667777"));
  (STRICT_GROUPING, (bs "4156667777 x 123"), (bs "US"), 0%nat, (bs "4156667777 x 123"));
  (STRICT_GROUPING, (bs "415-666-7777"), (bs "US"), 0%nat, (bs "415-666-7777"));
  (STRICT_GROUPING, (bs "415/666-7777"), (bs "US"), 0%nat, (bs "415/666-7777"));
  (STRICT_GROUPING, (bs "415-666-7777 ext. 503"), (bs "US"), 0%nat, (bs "415-666-7777 ext. 503"));
  (STRICT_GROUPING, (bs "1 415 666 7777 x 123"), (bs "US"), 0%nat, (bs "1 415 666 7777 x 123"));
  (STRICT_GROUPING, (bs "+1 415-666-7777"), (bs "US"), 0%nat, (bs "+1 415-666-7777"));
  (STRICT_GROUPING, (bs "+494949 49"), (bs "DE"), 0%nat, (bs "+494949 49"));
  (STRICT_GROUPING, (bs "+49-49-34"), (bs "DE"), 0%nat, (bs "+49-49-34"));
  (STRICT_GROUPING, (bs "+49-4931-49"), (bs "DE"), 0%nat, (bs "+49-4931-49"));
  (STRICT_GROUPING, (bs "04931-49"), (bs "DE"), 0%nat, (bs "04931-49"));
  (STRICT_GROUPING, (bs "+49-494949"), (bs "DE"), 0%nat, (bs "+49-494949"));
  (STRICT_GROUPING, (bs "+49-494949 ext. 49"), (bs "DE"), 0%nat, (bs "+49-494949 ext. 49"));
  (STRICT_GROUPING, (bs "+49494949 ext. 49"), (bs "DE"), 0%nat, (bs "+49494949 ext. 49"));
  (STRICT_GROUPING, (bs "0494949"), (bs "DE"), 0%nat, (bs "0494949"));
  (STRICT_GROUPING, (bs "0494949 ext. 49"), (bs "DE"), 0%nat, (bs "0494949 ext. 49"));
  (STRICT_GROUPING, (bs "01 (33) 3461 2234"), (bs "MX"), 0%nat, (bs "01 (33) 3461 2234"));
  (STRICT_GROUPING, (bs "(33) 3461 2234"), (bs "MX"), 0%nat, (bs "(33) 3461 2234"));
  (STRICT_GROUPING, (bs "1800-10-10 22"), (bs "AU"), 0%nat, (bs "1800-10-10 22"));
  (STRICT_GROUPING, (bs "0900-1 123 123"), (bs "DE"), 0%nat, (bs "0900-1 123 123"));
  (STRICT_GROUPING, (bs "(0)900-1 123 123"), (bs "DE"), 0%nat, (bs "(0)900-1 123 123"));
  (STRICT_GROUPING, (bs "0 900-1 123 123"), (bs "DE"), 0%nat, (bs "0 900-1 123 123"));
  (STRICT_GROUPING, (bs "+33 3 34 23 12"), (bs "FR"), 0%nat, (bs "+33 3 34 23 12"))] = true.
Proof. vm_cast_no_check (eq_refl true). Qed.

Lemma TestNonMatchesWithStrictGroupLeniency_0 : forallb none_found [(STRICT_GROUPING, (bs "12345"), (bs "US"));
  (STRICT_GROUPING, (bs "23456789"), (bs "US"));
  (STRICT_GROUPING, (bs "234567890112"), (bs "US"));
  (STRICT_GROUPING, (bs "650+253+1234"), (bs "US"));
  (STRICT_GROUPING, (bs "3/10/1984"), (bs "CA"));
  (STRICT_GROUPING, (bs "03/27/2011"), (bs "US"));
  (STRICT_GROUPING, (bs "31/8/2011"), (bs "US"));
  (STRICT_GROUPING, (bs "1/12/2011"), (bs "US"));
  (STRICT_GROUPING, (bs "10/12/82"), (bs "DE"));
  (STRICT_GROUPING, (bs "650x2531234"), (bs "US"));
  (STRICT_GROUPING, (bs "2012-01-02 08:00"), (bs "US"));
  (STRICT_GROUPING, (bs "2012/01/02 08:00"), (bs "US"));
  (STRICT_GROUPING, (bs "20120102 08:00"), (bs "US"));
  (STRICT_GROUPING, (bs "2014-04-12 04:04 PM"), (bs "US"));
  (STRICT_GROUPING, (bs "2014-04-12 &nbsp;04:04 PM"), (bs "US"));
  (STRICT_GROUPING, (bs "2014-04-12 &nbsp;04:04 PM"), (bs "US"));
  (STRICT_GROUPING, (bs "2014-04-12  04:04 PM"), (bs "US"));
  (STRICT_GROUPING, (bs "7121115678"), (bs "US"));
  (STRICT_GROUPING, (bs "1650 x 253 - 1234"), (bs "US"));
  (STRICT_GROUPING, (bs "650 x 253 - 1234"), (bs "US"));
  (STRICT_GROUPING, (bs "6502531x234"), (bs "US"));
  (STRICT_GROUPING, (bs "(20) 3346 1234"), (bs "GB"));
  (STRICT_GROUPING, (bs "65 02 53 00 00"), (bs "US"));
  (STRICT_GROUPING, (bs "6502 538365"), (bs "US"));
  (STRICT_GROUPING, (bs "650//253-1234"), (bs "US"));
  (STRICT_GROUPING, (bs "650/253/1234"), (bs "US"));
  (STRICT_GROUPING, (bs "9002309. 158"), (bs "US"));
  (STRICT_GROUPING, (bs "12 7/8 - 14 12/34 - 5"), (bs "US"));
  (STRICT_GROUPING, (bs "12.1 - 23.71 - 23.45"), (bs "US"));
  (STRICT_GROUPING, (bs "800 234 1 111x1111"), (bs "US"));
  (STRICT_GROUPING, (bs "1979-2011 100"), (bs "US"));
  (STRICT_GROUPING, (bs "+494949-4-94"), (bs "DE"));
  (STRICT_GROUPING, [239; 188; 148; 239; 188; 145; 239; 188; 149; 239; 188; 150; 239; 188; 150; 239; 188; 150; 239; 188; 150; 45; 239; 188; 151; 239; 188; 151; 239; 188; 151], (bs "US"));
  (STRICT_GROUPING, (bs "2012-0102 08"), (bs "US"));
  (STRICT_GROUPING, (bs "2012-01-02 08"), (bs "US"));
  (STRICT_GROUPING, (bs "1800-1-0-10 22"), (bs "AU"));
  (STRICT_GROUPING, (bs "030-3-2 23 12 34"), (bs "DE"));
  (STRICT_GROUPING, (bs "03 0 -3 2 23 12 34"), (bs "DE"));
  (STRICT_GROUPING, (bs "(0)3 0 -3 2 23 12 34"), (bs "DE"));
  (STRICT_GROUPING, (bs "0 3 0 -3 2 23 12 34"), (bs "DE"))] = true.
Proof. vm_cast_no_check (eq_refl true). Qed.

Lemma TestNonMatchesWithStrictGroupLeniency_1 : forallb none_found [(STRICT_GROUPING, (bs "+52 332 123 23 23"), (bs "MX"))] = true.
Proof. vm_cast_no_check (eq_refl true). Qed.

Lemma TestMatchesWithExactGroupingLeniency_0 : forallb first_is [(EXACT_GROUPING, [239; 188; 148; 239; 188; 145; 239; 188; 149; 239; 188; 150; 239; 188; 150; 239; 188; 150; 239; 188; 151; 239; 188; 151; 239; 188; 151; 239; 188; 151], (bs "US"), 0%nat, [239; 188; 148; 239; 188; 145; 239; 188; 149; 239; 188; 150; 239; 188; 150; 239; 188; 150; 239; 188; 151; 239; 188; 151; 239; 188; 151; 239; 188; 151]);
  (EXACT_GROUPING, [239; 188; 148; 239; 188; 145; 239; 188; 149; 45; 239; 188; 150; 239; 188; 150; 239; 188; 150; 45; 239; 188; 151; 239; 188; 151; 239; 188; 151; 239; 188; 151], (bs "US"), 0%nat, [239; 188; 148; 239; 188; 145; 239; 188; 149; 45; 239; 188; 150; 239; 188; 150; 239; 188; 150; 45; 239; 188; 151; 239; 188; 151; 239; 188; 151; 239; 188; 151]);
  (EXACT_GROUPING, (bs "4156667777"), (bs "US"), 0%nat, (bs "4156667777"));
  (EXACT_GROUPING, (bs "4156667777 x 123"), (bs "US"), 0%nat, (bs "4156667777 x 123"));
  (EXACT_GROUPING, (bs "415-666-7777"), (bs "US"), 0%nat, (bs "415-666-7777"));
  (EXACT_GROUPING, (bs "415/666-7777"), (bs "US"), 0%nat, (bs "415/666-7777"));
  (EXACT_GROUPING, (bs "415-666-7777 ext. 503"), (bs "US"), 0%nat, (bs "415-666-7777 ext. 503"));
  (EXACT_GROUPING, (bs "1 415 666 7777 x 123"), (bs "US"), 0%nat, (bs "1 415 666 7777 x 123"));
  (EXACT_GROUPING, (bs "+1 415-666-7777"), (bs "US"), 0%nat, (bs "+1 415-666-7777"));
  (EXACT_GROUPING, (bs "+494949 49"), (bs "DE"), 0%nat, (bs "+494949 49"));
  (EXACT_GROUPING, (bs "+49-49-34"), (bs "DE"), 0%nat, (bs "+49-49-34"));
  (EXACT_GROUPING, (bs "+49-4931-49"), (bs "DE"), 0%nat, (bs "+49-4931-49"));
  (EXACT_GROUPING, (bs "04931-49"), (bs "DE"), 0%nat, (bs "04931-49"));
  (EXACT_GROUPING, (bs "+49-494949"), (bs "DE"), 0%nat, (bs "+49-494949"));
  (EXACT_GROUPING, (bs "+49-494949 ext. 49"), (bs "DE"), 0%nat, (bs "+49-494949 ext. 49"));
  (EXACT_GROUPING, (bs "+49494949 ext. 49"), (bs "DE"), 0%nat, (bs "+49494949 ext. 49"));
  (EXACT_GROUPING, (bs "0494949"), (bs "DE"), 0%nat, (bs "0494949"));
  (EXACT_GROUPING, (bs "0494949 ext. 49"), (bs "DE"), 0%nat, (bs "0494949 ext. 49"));
  (EXACT_GROUPING, (bs "01 (33) 3461 2234"), (bs "MX"), 0%nat, (bs "01 (33) 3461 2234"));
  (EXACT_GROUPING, (bs "(33) 3461 2234"), (bs "MX"), 0%nat, (bs "(33) 3461 2234"));
  (EXACT_GROUPING, (bs "1800-10-10 22"), (bs "AU"), 0%nat, (bs "1800-10-10 22"));
  (EXACT_GROUPING, (bs "0900-1 123 123"), (bs "DE"), 0%nat, (bs "0900-1 123 123"));
  (EXACT_GROUPING, (bs "(0)900-1 123 123"), (bs "DE"), 0%nat, (bs "(0)900-1 123 123"));
  (EXACT_GROUPING, (bs "0 900-1 123 123"), (bs "DE"), 0%nat, (bs "0 900-1 123 123"));
  (EXACT_GROUPING, (bs "+33 3 34 23 12"), (bs "FR"), 0%nat, (bs "+33 3 34 23 12"))] = true.
Proof. vm_cast_no_check (eq_refl true). Qed.

Lemma TestNonMatchesExactGroupLeniency_0 : forallb none_found [(EXACT_GROUPING, (bs "12345"), (bs "US"));
  (EXACT_GROUPING, (bs "23456789"), (bs "US"));
  (EXACT_GROUPING, (bs "234567890112"), (bs "US"));
  (EXACT_GROUPING, (bs "650+253+1234"), (bs "US"));
  (EXACT_GROUPING, (bs "3/10/1984"), (bs "CA"));
  (EXACT_GROUPING, (bs "03/27/2011"), (bs "US"));
  (EXACT_GROUPING, (bs "31/8/2011"), (bs "US"));
  (EXACT_GROUPING, (bs "1/12/2011"), (bs "US"));
  (EXACT_GROUPING, (bs "10/12/82"), (bs "DE"));
  (EXACT_GROUPING, (bs "650x2531234"), (bs "US"));
  (EXACT_GROUPING, (bs "2012-01-02 08:00"), (bs "US"));
  (EXACT_GROUPING, (bs "2012/01/02 08:00"), (bs "US"));
  (EXACT_GROUPING, (bs "20120102 08:00"), (bs "US"));
  (EXACT_GROUPING, (bs "2014-04-12 04:04 PM"), (bs "US"));
  (EXACT_GROUPING, (bs "2014-04-12 &nbsp;04:04 PM"), (bs "US"));
  (EXACT_GROUPING, (bs "2014-04-12 &nbsp;04:04 PM"), (bs "US"));
  (EXACT_GROUPING, (bs "2014-04-12  04:04 PM"), (bs "US"));
  (EXACT_GROUPING, (bs "7121115678"), (bs "US"));
  (EXACT_GROUPING, (bs "1650 x 253 - 1234"), (bs "US"));
  (EXACT_GROUPING, (bs "650 x 253 - 1234"), (bs "US"));
  (EXACT_GROUPING, (bs "6502531x234"), (bs "US"));
  (EXACT_GROUPING, (bs "(20) 3346 1234"), (bs "GB"));
  (EXACT_GROUPING, (bs "65 02 53 00 00"), (bs "US"));
  (EXACT_GROUPING, (bs "6502 538365"), (bs "US"));
  (EXACT_GROUPING, (bs "650//253-1234"), (bs "US"));
  (EXACT_GROUPING, (bs "650/253/1234"), (bs "US"));
  (EXACT_GROUPING, (bs "9002309. 158"), (bs "US"));
  (EXACT_GROUPING, (bs "12 7/8 - 14 12/34 - 5"), (bs "US"));
  (EXACT_GROUPING, (bs "12.1 - 23.71 - 23.45"), (bs "US"));
  (EXACT_GROUPING, (bs "800 234 1 111x1111"), (bs "US"));
  (EXACT_GROUPING, (bs "1979-2011 100"), (bs "US"));
  (EXACT_GROUPING, (bs "+494949-4-94"), (bs "DE"));
  (EXACT_GROUPING, [239; 188; 148; 239; 188; 145; 239; 188; 149; 239; 188; 150; 239; 188; 150; 239; 188; 150; 239; 188; 150; 45; 239; 188; 151; 239; 188; 151; 239; 188; 151], (bs "US"));
  (EXACT_GROUPING, (bs "2012-0102 08"), (bs "US"));
  (EXACT_GROUPING, (bs "2012-01-02 08"), (bs "US"));
  (EXACT_GROUPING, (bs "1800-1-0-10 22"), (bs "AU"));
  (EXACT_GROUPING, (bs "030-3-2 23 12 34"), (bs "DE"));
  (EXACT_GROUPING, (bs "03 0 -3 2 23 12 34"), (bs "DE"));
  (EXACT_GROUPING, (bs "(0)3 0 -3 2 23 12 34"), (bs "DE"));
  (EXACT_GROUPING, (bs "0 3 0 -3 2 23 12 34"), (bs "DE"))] = true.
Proof. vm_cast_no_check (eq_refl true). Qed.

Lemma TestNonMatchesExactGroupLeniency_1 : forallb none_found [(EXACT_GROUPING, (bs "+52 332 123 23 23"), (bs "MX"));
  (EXACT_GROUPING, (bs "(415) 6667777"), (bs "US"));
  (EXACT_GROUPING, (bs "415-6667777"), (bs "US"));
  (EXACT_GROUPING, (bs "0800-2491234"), (bs "DE"));
  (EXACT_GROUPING, (bs "0900-1 123123"), (bs "DE"));
  (EXACT_GROUPING, (bs "(0)900-1 123123"), (bs "DE"));
  (EXACT_GROUPING, (bs "0 900-1 123123"), (bs "DE"));
  (EXACT_GROUPING, (bs "+33 3 34 2312"), (bs "FR"))] = true.
Proof. vm_cast_no_check (eq_refl true). Qed.

Lemma in_context_possible_0 : forallb first_is [(POSSIBLE, (bs "033316005"), (bs "NZ"), 0%nat, (bs "033316005"));
  (POSSIBLE, (bs "Hi call033316005"), (bs "NZ"), 7%nat, (bs "033316005"));
  (POSSIBLE, (bs "As quoted by Alfonso 12-15 (2009), you may call me at 033316005"), (bs "NZ"), 54%nat, (bs "033316005"));
  (POSSIBLE, (bs "Hi there, call 01164 3 331 6005 to reach me!"), (bs "US"), 15%nat, (bs "01164 3 331 6005"));
  (POSSIBLE, (bs "Call 01164 3 331 6005 or +1800-123-4567!"), (bs "US"), 5%nat, (bs "01164 3 331 6005"));
  (POSSIBLE, (bs "01164 3 331 6005;x 7246433"), (bs "US"), 0%nat, (bs "01164 3 331 6005"));
  (POSSIBLE, (bs "Hello 123-456-7890"), (bs "US"), 6%nat, (bs "123-456-7890"));
  (POSSIBLE, (bs "Hi call123-456-7890forme"), (bs "US"), 7%nat, (bs "123-456-7890"));
  (POSSIBLE, (bs "As I said on 03/10/2011, you may call me at 123-456-7890"), (bs "US"), 44%nat, (bs "123-456-7890"));
  (POSSIBLE, (bs "0081-650-333-6000"), (bs "SG"), 0%nat, (bs "0081-650-333-6000"));
  (POSSIBLE, (bs "Hi call0081-650-333-6000"), (bs "SG"), 7%nat, (bs "0081-650-333-6000"));
  (POSSIBLE, (bs "As quoted by Alfonso 12-15 (2009), you may call me at 0081-650-333-6000"), (bs "SG"), 54%nat, (bs "0081-650-333-6000"));
  (POSSIBLE, [72; 105; 32; 116; 104; 101; 114; 101; 44; 32; 99; 97; 108; 108; 32; 239; 188; 139; 49; 32; 40; 54; 53; 48; 41; 32; 51; 51; 51; 45; 54; 48; 48; 48; 32; 116; 111; 32; 114; 101; 97; 99; 104; 32; 109; 101; 33], (bs "SG"), 15%nat, [239; 188; 139; 49; 32; 40; 54; 53; 48; 41; 32; 51; 51; 51; 45; 54; 48; 48; 48]);
  (POSSIBLE, [67; 97; 108; 108; 32; 239; 188; 139; 49; 32; 40; 54; 53; 48; 41; 32; 51; 51; 51; 45; 54; 48; 48; 48; 32; 111; 114; 32; 43; 49; 56; 48; 48; 45; 49; 50; 51; 45; 52; 53; 54; 55; 33], (bs "SG"), 5%nat, [239; 188; 139; 49; 32; 40; 54; 53; 48; 41; 32; 51; 51; 51; 45; 54; 48; 48; 48]);
  (POSSIBLE, [239; 188; 139; 49; 32; 40; 54; 53; 48; 41; 32; 51; 51; 51; 45; 54; 48; 48; 48; 59; 120; 32; 55; 50; 52; 54; 52; 51; 51], (bs "SG"), 0%nat, [239; 188; 139; 49; 32; 40; 54; 53; 48; 41; 32; 51; 51; 51; 45; 54; 48; 48; 48]);
  (POSSIBLE, (bs "Hello 312 345 678"), (bs "IT"), 6%nat, (bs "312 345 678"));
  (POSSIBLE, (bs "Hi call312 345 678forme"), (bs "IT"), 7%nat, (bs "312 345 678"));
  (POSSIBLE, (bs "As I said on 03/10/2011, you may call me at 312 345 678"), (bs "IT"), 44%nat, (bs "312 345 678"));
  (POSSIBLE, (bs "03715 15 65 4320"), (bs "AR"), 0%nat, (bs "03715 15 65 4320"));
  (POSSIBLE, (bs "Hi call03715 15 65 4320"), (bs "AR"), 7%nat, (bs "03715 15 65 4320"));
  (POSSIBLE, (bs "As quoted by Alfonso 12-15 (2009), you may call me at 03715 15 65 4320"), (bs "AR"), 54%nat, (bs "03715 15 65 4320"));
  (POSSIBLE, (bs "Hi there, call 03715 65 4321 to reach me!"), (bs "AR"), 15%nat, (bs "03715 65 4321"));
  (POSSIBLE, (bs "Call 03715 65 4321 or +1800-123-4567!"), (bs "AR"), 5%nat, (bs "03715 65 4321"));
  (POSSIBLE, (bs "03715 65 4321;x 7246433"), (bs "AR"), 0%nat, (bs "03715 65 4321"));
  (POSSIBLE, (bs "Hello (0xx) 123456789 x 1234"), (bs "AR"), 6%nat, (bs "(0xx) 123456789 x 1234"));
  (POSSIBLE, (bs "Hi call(0xx) 123456789 x 1234forme"), (bs "AR"), 7%nat, (bs "(0xx) 123456789 x 1234"));
  (POSSIBLE, (bs "As I said on 03/10/2011, you may call me at (0xx) 123456789 x 1234"), (bs "AR"), 44%nat, (bs "(0xx) 123456789 x 1234"));
  (POSSIBLE, (bs "(449)978-0001"), (bs "MX"), 0%nat, (bs "(449)978-0001"));
  (POSSIBLE, (bs "Hi call(449)978-0001"), (bs "MX"), 7%nat, (bs "(449)978-0001"));
  (POSSIBLE, (bs "As quoted by Alfonso 12-15 (2009), you may call me at (449)978-0001"), (bs "MX"), 54%nat, (bs "(449)978-0001"));
  (POSSIBLE, (bs "Hi there, call +64 3 331 6005 to reach me!"), (bs "ZZ"), 15%nat, (bs "+64 3 331 6005"));
  (POSSIBLE, (bs "Call +64 3 331 6005 or +1800-123-4567!"), (bs "ZZ"), 5%nat, (bs "+64 3 331 6005"));
  (POSSIBLE, (bs "+64 3 331 6005;x 7246433"), (bs "ZZ"), 0%nat, (bs "+64 3 331 6005"));
  (POSSIBLE, (bs "Hello 03-3316005 int.3456"), (bs "NZ"), 6%nat, (bs "03-3316005 int.3456"));
  (POSSIBLE, (bs "Hi call03-3316005 int.3456forme"), (bs "NZ"), 7%nat, (bs "03-3316005 int.3456"));
  (POSSIBLE, (bs "As I said on 03/10/2011, you may call me at 03-3316005 int.3456"), (bs "NZ"), 44%nat, (bs "03-3316005 int.3456"));
  (POSSIBLE, (bs "0~0 1800 7493 524 ~1234"), (bs "PL"), 0%nat, (bs "0~0 1800 7493 524 ~1234"));
  (POSSIBLE, (bs "Hi call0~0 1800 7493 524 ~1234"), (bs "PL"), 7%nat, (bs "0~0 1800 7493 524 ~1234"));
  (POSSIBLE, (bs "As quoted by Alfonso 12-15 (2009), you may call me at 0~0 1800 7493 524 ~1234"), (bs "PL"), 54%nat, (bs "0~0 1800 7493 524 ~1234"));
  (POSSIBLE, (bs "Hi there, call +44 2034567890 X456 to reach me!"), (bs "GB"), 15%nat, (bs "+44 2034567890 X456"))] = true.
Proof. vm_cast_no_check (eq_refl true). Qed.

Lemma in_context_possible_1 : forallb first_is [(POSSIBLE, (bs "Call +44 2034567890 X456 or +1800-123-4567!"), (bs "GB"), 5%nat, (bs "+44 2034567890 X456"));
  (POSSIBLE, (bs "+44 2034567890 X456;x 7246433"), (bs "GB"), 0%nat, (bs "+44 2034567890 X456"));
  (POSSIBLE, (bs "Hello (800) 901-3355 x 7246433"), (bs "US"), 6%nat, (bs "(800) 901-3355 x 7246433"));
  (POSSIBLE, (bs "Hi call(800) 901-3355 x 7246433forme"), (bs "US"), 7%nat, (bs "(800) 901-3355 x 7246433"));
  (POSSIBLE, (bs "As I said on 03/10/2011, you may call me at (800) 901-3355 x 7246433"), (bs "US"), 44%nat, (bs "(800) 901-3355 x 7246433"));
  (POSSIBLE, (bs "(800) 901-3355 ext: 7246433"), (bs "US"), 0%nat, (bs "(800) 901-3355 ext: 7246433"));
  (POSSIBLE, (bs "Hi call(800) 901-3355 ext: 7246433"), (bs "US"), 7%nat, (bs "(800) 901-3355 ext: 7246433"));
  (POSSIBLE, (bs "As quoted by Alfonso 12-15 (2009), you may call me at (800) 901-3355 ext: 7246433"), (bs "US"), 54%nat, (bs "(800) 901-3355 ext: 7246433"))] = true.
Proof. vm_cast_no_check (eq_refl true). Qed.

(* findValidInContext only runs for valid numbers *)
Definition valid_first_is (c : leniency * bytes * bytes * nat * bytes) : bool :=
  let '(l, text, region, start, raw) := c in
  match Parse test_container raw region with
  | Ret (n, None) => match IsValidNumber test_container n with Ret true => first_is c | Ret false => true | _ => false end
  | _ => false
  end.

Lemma in_context_valid_0 : forallb valid_first_is [(VALID, (bs "It's only 9.99! Call 033316005 to buy"), (bs "NZ"), 21%nat, (bs "033316005"));
  (VALID, (bs "Call me on 21.6. at 033316005"), (bs "NZ"), 20%nat, (bs "033316005"));
  (VALID, (bs "Call me on 21.6.1984 at 01164 3 331 6005"), (bs "US"), 24%nat, (bs "01164 3 331 6005"));
  (VALID, (bs "Call me on 06/21/84 at 01164 3 331 6005"), (bs "US"), 23%nat, (bs "01164 3 331 6005"));
  (VALID, (bs "Call me on 06/21 at 123-456-7890"), (bs "US"), 20%nat, (bs "123-456-7890"));
  (VALID, (bs "It's only 9.99! Call 0081-650-333-6000 to buy"), (bs "SG"), 21%nat, (bs "0081-650-333-6000"));
  (VALID, (bs "Call me on 21.6. at 0081-650-333-6000"), (bs "SG"), 20%nat, (bs "0081-650-333-6000"));
  (VALID, [67; 97; 108; 108; 32; 109; 101; 32; 111; 110; 32; 50; 49; 46; 54; 46; 49; 57; 56; 52; 32; 97; 116; 32; 239; 188; 139; 49; 32; 40; 54; 53; 48; 41; 32; 51; 51; 51; 45; 54; 48; 48; 48], (bs "SG"), 24%nat, [239; 188; 139; 49; 32; 40; 54; 53; 48; 41; 32; 51; 51; 51; 45; 54; 48; 48; 48]);
  (VALID, [67; 97; 108; 108; 32; 109; 101; 32; 111; 110; 32; 48; 54; 47; 50; 49; 47; 56; 52; 32; 97; 116; 32; 239; 188; 139; 49; 32; 40; 54; 53; 48; 41; 32; 51; 51; 51; 45; 54; 48; 48; 48], (bs "SG"), 23%nat, [239; 188; 139; 49; 32; 40; 54; 53; 48; 41; 32; 51; 51; 51; 45; 54; 48; 48; 48]);
  (VALID, (bs "Call me on 06/21 at 312 345 678"), (bs "IT"), 20%nat, (bs "312 345 678"));
  (VALID, (bs "It's only 9.99! Call 03715 15 65 4320 to buy"), (bs "AR"), 21%nat, (bs "03715 15 65 4320"));
  (VALID, (bs "Call me on 21.6. at 03715 15 65 4320"), (bs "AR"), 20%nat, (bs "03715 15 65 4320"));
  (VALID, (bs "Call me on 21.6.1984 at 03715 65 4321"), (bs "AR"), 24%nat, (bs "03715 65 4321"));
  (VALID, (bs "Call me on 06/21/84 at 03715 65 4321"), (bs "AR"), 23%nat, (bs "03715 65 4321"));
  (VALID, (bs "Call me on 06/21 at (0xx) 123456789 x 1234"), (bs "AR"), 20%nat, (bs "(0xx) 123456789 x 1234"));
  (VALID, (bs "It's only 9.99! Call (449)978-0001 to buy"), (bs "MX"), 21%nat, (bs "(449)978-0001"));
  (VALID, (bs "Call me on 21.6. at (449)978-0001"), (bs "MX"), 20%nat, (bs "(449)978-0001"));
  (VALID, (bs "Call me on 21.6.1984 at +64 3 331 6005"), (bs "ZZ"), 24%nat, (bs "+64 3 331 6005"));
  (VALID, (bs "Call me on 06/21/84 at +64 3 331 6005"), (bs "ZZ"), 23%nat, (bs "+64 3 331 6005"));
  (VALID, (bs "Call me on 06/21 at 03-3316005 int.3456"), (bs "NZ"), 20%nat, (bs "03-3316005 int.3456"));
  (VALID, (bs "It's only 9.99! Call 0~0 1800 7493 524 ~1234 to buy"), (bs "PL"), 21%nat, (bs "0~0 1800 7493 524 ~1234"));
  (VALID, (bs "Call me on 21.6. at 0~0 1800 7493 524 ~1234"), (bs "PL"), 20%nat, (bs "0~0 1800 7493 524 ~1234"));
  (VALID, (bs "Call me on 21.6.1984 at +44 2034567890 X456"), (bs "GB"), 24%nat, (bs "+44 2034567890 X456"));
  (VALID, (bs "Call me on 06/21/84 at +44 2034567890 X456"), (bs "GB"), 23%nat, (bs "+44 2034567890 X456"));
  (VALID, (bs "Call me on 06/21 at (800) 901-3355 x 7246433"), (bs "US"), 20%nat, (bs "(800) 901-3355 x 7246433"));
  (VALID, (bs "It's only 9.99! Call (800) 901-3355 ext: 7246433 to buy"), (bs "US"), 21%nat, (bs "(800) 901-3355 ext: 7246433"));
  (VALID, (bs "Call me on 21.6. at (800) 901-3355 ext: 7246433"), (bs "US"), 20%nat, (bs "(800) 901-3355 ext: 7246433"))] = true.
Proof. vm_cast_no_check (eq_refl true). Qed.

Lemma TestMatchesWithSurroundingLatinChars_found_0 : forallb first_is [(POSSIBLE, (bs "abc415-666-7777def"), (bs "US"), 3%nat, (bs "415-666-7777"));
  (POSSIBLE, (bs "abc415-666-7777"), (bs "US"), 3%nat, (bs "415-666-7777"));
  (POSSIBLE, (bs "415-666-7777def"), (bs "US"), 0%nat, (bs "415-666-7777"));
  (POSSIBLE, [195; 137; 52; 49; 53; 45; 54; 54; 54; 45; 55; 55; 55; 55], (bs "US"), 2%nat, (bs "415-666-7777"));
  (POSSIBLE, [101; 204; 129; 52; 49; 53; 45; 54; 54; 54; 45; 55; 55; 55; 55], (bs "US"), 3%nat, (bs "415-666-7777"))] = true.
Proof. vm_cast_no_check (eq_refl true). Qed.

Lemma TestMatchesWithSurroundingLatinChars_none_0 : forallb none_found [(VALID, (bs "abc415-666-7777def"), (bs "US"));
  (VALID, (bs "abc415-666-7777"), (bs "US"));
  (VALID, (bs "415-666-7777def"), (bs "US"));
  (VALID, [195; 137; 52; 49; 53; 45; 54; 54; 54; 45; 55; 55; 55; 55], (bs "US"));
  (VALID, [101; 204; 129; 52; 49; 53; 45; 54; 54; 54; 45; 55; 55; 55; 55], (bs "US"))] = true.
Proof. vm_cast_no_check (eq_refl true). Qed.

Lemma TestMoneyNotSeenAsPhoneNumber_found_0 : forallb first_is [(POSSIBLE, (bs "$415-666-7777"), (bs "US"), 1%nat, (bs "415-666-7777"));
  (POSSIBLE, (bs "415-666-7777$"), (bs "US"), 0%nat, (bs "415-666-7777"));
  (POSSIBLE, [194; 163; 52; 49; 53; 45; 54; 54; 54; 45; 55; 55; 55; 55], (bs "US"), 2%nat, (bs "415-666-7777"));
  (POSSIBLE, [194; 165; 52; 49; 53; 45; 54; 54; 54; 45; 55; 55; 55; 55], (bs "US"), 2%nat, (bs "415-666-7777"))] = true.
Proof. vm_cast_no_check (eq_refl true). Qed.

Lemma TestMoneyNotSeenAsPhoneNumber_none_0 : forallb none_found [(VALID, (bs "$415-666-7777"), (bs "US"));
  (VALID, (bs "415-666-7777$"), (bs "US"));
  (VALID, [194; 163; 52; 49; 53; 45; 54; 54; 54; 45; 55; 55; 55; 55], (bs "US"));
  (VALID, [194; 165; 52; 49; 53; 45; 54; 54; 54; 45; 55; 55; 55; 55], (bs "US"))] = true.
Proof. vm_cast_no_check (eq_refl true). Qed.

Lemma TestPercentageNotSeenAsPhoneNumber_found_0 : forallb first_is [(POSSIBLE, (bs "415-666-7777%"), (bs "US"), 0%nat, (bs "415-666-7777"))] = true.
Proof. vm_cast_no_check (eq_refl true). Qed.

Lemma TestPercentageNotSeenAsPhoneNumber_none_0 : forallb none_found [(VALID, (bs "415-666-7777%"), (bs "US"))] = true.
Proof. vm_cast_no_check (eq_refl true). Qed.

Lemma TestPhoneNumberWithLeadingOrTrailingMoneyMatches_found_0 : forallb first_is [(VALID, (bs "$20 415-666-7777"), (bs "US"), 4%nat, (bs "415-666-7777"));
  (POSSIBLE, (bs "$20 415-666-7777"), (bs "US"), 4%nat, (bs "415-666-7777"));
  (VALID, (bs "415-666-7777 100$"), (bs "US"), 0%nat, (bs "415-666-7777"));
  (POSSIBLE, (bs "415-666-7777 100$"), (bs "US"), 0%nat, (bs "415-666-7777"))] = true.
Proof. vm_cast_no_check (eq_refl true). Qed.

Lemma TestMatchesWithSurroundingLatinCharsAndLeadingPunctuation_found_0 : forallb first_is [(POSSIBLE, (bs "abc+14156667777def"), (bs "US"), 3%nat, (bs "+14156667777"));
  (POSSIBLE, (bs "+14156667777def"), (bs "US"), 0%nat, (bs "+14156667777"));
  (POSSIBLE, [43; 49; 52; 49; 53; 54; 54; 54; 55; 55; 55; 55; 195; 137], (bs "US"), 0%nat, (bs "+14156667777"));
  (POSSIBLE, (bs "abc(415)6667777def"), (bs "US"), 3%nat, (bs "(415)6667777"));
  (POSSIBLE, (bs "(415)6667777def"), (bs "US"), 0%nat, (bs "(415)6667777"));
  (POSSIBLE, [40; 52; 49; 53; 41; 54; 54; 54; 55; 55; 55; 55; 195; 137], (bs "US"), 0%nat, (bs "(415)6667777"));
  (VALID, (bs "abc+14156667777"), (bs "US"), 3%nat, (bs "+14156667777"));
  (POSSIBLE, (bs "abc+14156667777"), (bs "US"), 3%nat, (bs "+14156667777"));
  (VALID, [195; 137; 43; 49; 52; 49; 53; 54; 54; 54; 55; 55; 55; 55], (bs "US"), 2%nat, (bs "+14156667777"));
  (POSSIBLE, [195; 137; 43; 49; 52; 49; 53; 54; 54; 54; 55; 55; 55; 55], (bs "US"), 2%nat, (bs "+14156667777"));
  (VALID, [195; 137; 43; 49; 52; 49; 53; 54; 54; 54; 55; 55; 55; 55; 46], (bs "US"), 2%nat, (bs "+14156667777"));
  (POSSIBLE, [195; 137; 43; 49; 52; 49; 53; 54; 54; 54; 55; 55; 55; 55; 46], (bs "US"), 2%nat, (bs "+14156667777"));
  (VALID, [195; 137; 43; 49; 52; 49; 53; 54; 54; 54; 55; 55; 55; 55; 32; 100; 101; 102], (bs "US"), 2%nat, (bs "+14156667777"));
  (POSSIBLE, [195; 137; 43; 49; 52; 49; 53; 54; 54; 54; 55; 55; 55; 55; 32; 100; 101; 102], (bs "US"), 2%nat, (bs "+14156667777"));
  (VALID, (bs "abc(415)6667777"), (bs "US"), 3%nat, (bs "(415)6667777"));
  (POSSIBLE, (bs "abc(415)6667777"), (bs "US"), 3%nat, (bs "(415)6667777"));
  (VALID, [195; 137; 40; 52; 49; 53; 41; 54; 54; 54; 55; 55; 55; 55], (bs "US"), 2%nat, (bs "(415)6667777"));
  (POSSIBLE, [195; 137; 40; 52; 49; 53; 41; 54; 54; 54; 55; 55; 55; 55], (bs "US"), 2%nat, (bs "(415)6667777"));
  (VALID, [195; 137; 40; 52; 49; 53; 41; 54; 54; 54; 55; 55; 55; 55; 46], (bs "US"), 2%nat, (bs "(415)6667777"));
  (POSSIBLE, [195; 137; 40; 52; 49; 53; 41; 54; 54; 54; 55; 55; 55; 55; 46], (bs "US"), 2%nat, (bs "(415)6667777"));
  (VALID, [195; 137; 40; 52; 49; 53; 41; 54; 54; 54; 55; 55; 55; 55; 32; 100; 101; 102], (bs "US"), 2%nat, (bs "(415)6667777"));
  (POSSIBLE, [195; 137; 40; 52; 49; 53; 41; 54; 54; 54; 55; 55; 55; 55; 32; 100; 101; 102], (bs "US"), 2%nat, (bs "(415)6667777"))] = true.
Proof. vm_cast_no_check (eq_refl true). Qed.

Lemma TestMatchesWithSurroundingLatinCharsAndLeadingPunctuation_none_0 : forallb none_found [(VALID, (bs "abc+14156667777def"), (bs "US"));
  (VALID, (bs "+14156667777def"), (bs "US"));
  (VALID, [43; 49; 52; 49; 53; 54; 54; 54; 55; 55; 55; 55; 195; 137], (bs "US"));
  (VALID, (bs "abc(415)6667777def"), (bs "US"));
  (VALID, (bs "(415)6667777def"), (bs "US"));
  (VALID, [40; 52; 49; 53; 41; 54; 54; 54; 55; 55; 55; 55; 195; 137], (bs "US"))] = true.
Proof. vm_cast_no_check (eq_refl true). Qed.

Lemma TestMatchesWithSurroundingChineseChars_found_0 : forallb first_is [(VALID, [230; 136; 145; 231; 154; 132; 231; 148; 181; 232; 175; 157; 229; 143; 183; 231; 160; 129; 230; 152; 175; 52; 49; 53; 45; 54; 54; 54; 45; 55; 55; 55; 55], (bs "US"), 21%nat, (bs "415-666-7777"));
  (POSSIBLE, [230; 136; 145; 231; 154; 132; 231; 148; 181; 232; 175; 157; 229; 143; 183; 231; 160; 129; 230; 152; 175; 52; 49; 53; 45; 54; 54; 54; 45; 55; 55; 55; 55], (bs "US"), 21%nat, (bs "415-666-7777"));
  (VALID, [52; 49; 53; 45; 54; 54; 54; 45; 55; 55; 55; 55; 230; 152; 175; 230; 136; 145; 231; 154; 132; 231; 148; 181; 232; 175; 157; 229; 143; 183; 231; 160; 129], (bs "US"), 0%nat, (bs "415-666-7777"));
  (POSSIBLE, [52; 49; 53; 45; 54; 54; 54; 45; 55; 55; 55; 55; 230; 152; 175; 230; 136; 145; 231; 154; 132; 231; 148; 181; 232; 175; 157; 229; 143; 183; 231; 160; 129], (bs "US"), 0%nat, (bs "415-666-7777"));
  (VALID, [232; 175; 183; 230; 139; 168; 230; 137; 147; 52; 49; 53; 45; 54; 54; 54; 45; 55; 55; 55; 55; 230; 136; 145; 229; 156; 168; 230; 152; 142; 229; 164; 169], (bs "US"), 9%nat, (bs "415-666-7777"));
  (POSSIBLE, [232; 175; 183; 230; 139; 168; 230; 137; 147; 52; 49; 53; 45; 54; 54; 54; 45; 55; 55; 55; 55; 230; 136; 145; 229; 156; 168; 230; 152; 142; 229; 164; 169], (bs "US"), 9%nat, (bs "415-666-7777"))] = true.
Proof. vm_cast_no_check (eq_refl true). Qed.

Lemma TestMatchesWithSurroundingPunctuation_found_0 : forallb first_is [(VALID, (bs "My number-415-666-7777"), (bs "US"), 10%nat, (bs "415-666-7777"));
  (POSSIBLE, (bs "My number-415-666-7777"), (bs "US"), 10%nat, (bs "415-666-7777"));
  (VALID, (bs "415-666-7777.Nice day."), (bs "US"), 0%nat, (bs "415-666-7777"));
  (POSSIBLE, (bs "415-666-7777.Nice day."), (bs "US"), 0%nat, (bs "415-666-7777"));
  (VALID, (bs "Tel:415-666-7777."), (bs "US"), 4%nat, (bs "415-666-7777"));
  (POSSIBLE, (bs "Tel:415-666-7777."), (bs "US"), 4%nat, (bs "415-666-7777"));
  (VALID, (bs "Tel: 415-666-7777 on Saturdays."), (bs "US"), 5%nat, (bs "415-666-7777"));
  (POSSIBLE, (bs "Tel: 415-666-7777 on Saturdays."), (bs "US"), 5%nat, (bs "415-666-7777"))] = true.
Proof. vm_cast_no_check (eq_refl true). Qed.

Lemma TestNonMatchingBracketsAreInvalid_no_0 : forallb none_found [(VALID, (bs "80.585 [79.964, 81.191]"), (bs "US"));
  (VALID, (bs "80.585 [79.964]"), (bs "US"));
  (VALID, (bs "80.585 ((79.964)"), (bs "US"));
  (VALID, (bs "(80).(585) (79).(9)64"), (bs "US"))] = true.
Proof. vm_cast_no_check (eq_refl true). Qed.

Lemma TestNoMatchIfRegionIsNull_no_0 : forallb none_found [(VALID, (bs "Random text body - number is 0331 6005, see you there"), (bs ""))] = true.
Proof. vm_cast_no_check (eq_refl true). Qed.

Lemma TestNoMatchInEmptyString_no_0 : forallb none_found [(VALID, (bs ""), (bs "US"));
  (VALID, (bs "  "), (bs "US"))] = true.
Proof. vm_cast_no_check (eq_refl true). Qed.

Lemma TestNoMatchIfNoNumber_no_0 : forallb none_found [(VALID, (bs "Random text body - number is foobar, see you there"), (bs "US"))] = true.
Proof. vm_cast_no_check (eq_refl true). Qed.

Lemma TestNullInput_no_0 : forallb none_found [(VALID, (bs ""), (bs "US"));
  (VALID, (bs ""), (bs ""))] = true.
Proof. vm_cast_no_check (eq_refl true). Qed.

Lemma TestIntermediateParsePositions_0 : forallb first_is [(POSSIBLE, (bs "Call 033316005  or 032316005!"), (bs "NZ"), 5%nat, (bs "033316005"));
  (POSSIBLE, (bs "all 033316005  or 032316005!"), (bs "NZ"), 4%nat, (bs "033316005"));
  (POSSIBLE, (bs "ll 033316005  or 032316005!"), (bs "NZ"), 3%nat, (bs "033316005"));
  (POSSIBLE, (bs "l 033316005  or 032316005!"), (bs "NZ"), 2%nat, (bs "033316005"));
  (POSSIBLE, (bs " 033316005  or 032316005!"), (bs "NZ"), 1%nat, (bs "033316005"));
  (POSSIBLE, (bs "033316005  or 032316005!"), (bs "NZ"), 0%nat, (bs "033316005"));
  (POSSIBLE, (bs "33316005  or 032316005!"), (bs "NZ"), 0%nat, (bs "33316005"));
  (POSSIBLE, (bs "3316005  or 032316005!"), (bs "NZ"), 0%nat, (bs "3316005"));
  (POSSIBLE, (bs "316005  or 032316005!"), (bs "NZ"), 11%nat, (bs "032316005"));
  (POSSIBLE, (bs "16005  or 032316005!"), (bs "NZ"), 10%nat, (bs "032316005"));
  (POSSIBLE, (bs "6005  or 032316005!"), (bs "NZ"), 9%nat, (bs "032316005"));
  (POSSIBLE, (bs "005  or 032316005!"), (bs "NZ"), 8%nat, (bs "032316005"));
  (POSSIBLE, (bs "05  or 032316005!"), (bs "NZ"), 7%nat, (bs "032316005"));
  (POSSIBLE, (bs "5  or 032316005!"), (bs "NZ"), 6%nat, (bs "032316005"));
  (POSSIBLE, (bs "  or 032316005!"), (bs "NZ"), 5%nat, (bs "032316005"));
  (POSSIBLE, (bs " or 032316005!"), (bs "NZ"), 4%nat, (bs "032316005"));
  (POSSIBLE, (bs "or 032316005!"), (bs "NZ"), 3%nat, (bs "032316005"));
  (POSSIBLE, (bs "r 032316005!"), (bs "NZ"), 2%nat, (bs "032316005"));
  (POSSIBLE, (bs " 032316005!"), (bs "NZ"), 1%nat, (bs "032316005"));
  (POSSIBLE, (bs "032316005!"), (bs "NZ"), 0%nat, (bs "032316005"))] = true.
Proof. vm_cast_no_check (eq_refl true). Qed.

Lemma sequences_0 : forallb all_are [(VALID, (bs "415-666-7777 - 800-443-1223 - 212-443-1223 - 650-443-1223"), (bs "US"), [(0%nat, (bs "415-666-7777")); (15%nat, (bs "800-443-1223")); (30%nat, (bs "212-443-1223")); (45%nat, (bs "650-443-1223"))]);
  (VALID, (bs "(415) 666-7777 (800) 443-1223"), (bs "US"), [(0%nat, (bs "(415) 666-7777")); (15%nat, (bs "(800) 443-1223"))]);
  (VALID, (bs "My address is CA 34215 - 415-666-7777 is my number."), (bs "US"), [(25%nat, (bs "415-666-7777"))]);
  (VALID, (bs "My number is (415) 666 7777. 34215 is my zip-code."), (bs "US"), [(13%nat, (bs "(415) 666 7777"))]);
  (VALID, (bs "Call 650-253-4561 -- 455-234-3451"), (bs "US"), [(5%nat, (bs "650-253-4561")); (21%nat, (bs "455-234-3451"))]);
  (VALID, (bs "Call 650-253-4561--455-234-3451"), (bs "US"), []);
  (POSSIBLE, (bs "Call 033316005  or 032316005!"), (bs "NZ"), [(5%nat, (bs "033316005")); (19%nat, (bs "032316005"))]);
  (VALID, (bs "1 456 764 156"), (bs "ZZ"), []);
  (VALID, (bs "+14156667777"), (bs "ZZ"), [(0%nat, (bs "+14156667777"))]);
  (VALID, (bs "+14156667777 foobar +14156667777 "), (bs "ZZ"), [(0%nat, (bs "+14156667777")); (20%nat, (bs "+14156667777"))])] = true.
Proof. vm_cast_no_check (eq_refl true). Qed.

(* TestMaxMatches, TestMaxMatchesInvalid, TestMaxMatchesMixed: number of matches with maxTries 10 *)
Fixpoint times (k : nat) (s : bytes) : bytes := match k with O => [] | S k => s ++ times k s end.
Definition count_with (text : bytes) : option nat :=
  match FindNumbersWithLeniency test_container A text (bs "US") VALID 10 (fun _ => true) with
  | Ret (ms, _) => Some (List.length ms)
  | _ => None
  end.
Definition ok_count (c : bytes * nat) : bool := match count_with (fst c) with Some k => Nat.eqb k (snd c) | None => false end.

Lemma max_matches_0 : forallb ok_count [(times 15 (bs "My info: 415-666-7777,"), 15%nat);
  (times 10 (bs "My address 949-8945-0") ++ times 5 (bs "My info: 415-666-7777,"), 0%nat);
  (times 13 (bs "My info: 415-666-7777 123 fake street"), 10%nat)] = true.
Proof. vm_cast_no_check (eq_refl true). Qed.

(* TestContainsMoreThanOneSlashInNationalNumber *)
Definition slashes (c : Z * ccsource * bytes * bool) : bool :=
  let '(cc, src, s, b) := c in
  Bool.eqb (containsMoreThanOneSlashInNationalNumber (set_src (set_cc phone0 (Some cc)) (Some src)) s) b.

Lemma TestContainsMoreThanOneSlash_0 : forallb slashes [(1%Z, FROM_DEFAULT_COUNTRY, (bs "1/05/2013"), true);
  (274%Z, FROM_NUMBER_WITHOUT_PLUS_SIGN, (bs "27/4/2013"), true);
  (49%Z, FROM_NUMBER_WITH_PLUS_SIGN, (bs "49/69/2013"), false);
  (49%Z, FROM_NUMBER_WITHOUT_PLUS_SIGN, (bs "+49/69/2013"), false);
  (49%Z, FROM_NUMBER_WITHOUT_PLUS_SIGN, (bs "+ 49/69/2013"), false);
  (49%Z, FROM_NUMBER_WITHOUT_PLUS_SIGN, (bs "+ 49/69/20/13"), true);
  (49%Z, FROM_DEFAULT_COUNTRY, (bs "49/69/2013"), true)] = true.
Proof. vm_cast_no_check (eq_refl true). Qed.

Lemma TestIsLatinLetter_0 : forallb (fun c => Bool.eqb (isLatinLetter (fst c)) (snd c)) [(99, true);
  (67, true);
  (201, true);
  (769, true);
  (58, false);
  (53, false);
  (45, false);
  (46, false);
  (32, false);
  (25105, false);
  (12398, false)] = true.
Proof. vm_cast_no_check (eq_refl true). Qed.
