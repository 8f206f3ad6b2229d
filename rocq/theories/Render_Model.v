(** Model of the text of a result: CITestResult.__str__ (mbtk/math/CITestResult.py:191-261), and of the
    colours it uses (mbtk/utilities/colors.py:1-8).

    Simplifications: floats are reals or nan (no infinities, no negative zero); the attribute
    extra_info is always there (a result always has it, line 33); the duration (line 40) is a float. *)
From Coq Require Import Reals String Ascii.
From Verif Require Import Base Matrix_Model Sources_Model GTest_Model CIResult_Model.
Open Scope Z_scope.
Set Warnings "-abstract-large-number".

(** the code points of a literal of the source text [CITestResult.py:230-238, 254-259] *)
Definition lit (s : string) : text := map nat_of_ascii (list_ascii_of_string s).
(** the signs of CITestResult.py:232, 256 *)
Definition perp_sign : nat := 8869.
(** the check mark of CITestResult.py:221 *)
Definition check_sign : nat := 10004.
(** the ballot cross of CITestResult.py:223 *)
Definition cross_sign : nat := 10008.
(** the capital delta of CITestResult.py:236, 257 *)
Definition delta_sign : nat := 916.
(** YELLOW, RED and ENDC (colors.py:4-6) *)
Definition YELLOW : text := 27%nat :: lit "[93m".
(** colors.py:5 *)
Definition RED : text := 27%nat :: lit "[91m".
(** colors.py:6 *)
Definition ENDC : text := 27%nat :: lit "[0m".

(** ** The format specifications *)
(** '{:>w}' (CITestResult.py:232, 234, 236, 256, 257) *)
Definition pad_left (w : nat) (t : text) : text := (repeat 32%nat (w - length t) ++ t)%list.
(** '{:<w}' (CITestResult.py:232, 235, 256) *)
Definition pad_right (w : nat) (t : text) : text := (t ++ repeat 32%nat (w - length t))%list.
(** the nearest integer of a y >= 0, and of the two nearest the even one [the rounding of '.4f' and '.6f' in CITestResult.py:233-236] *)
Definition round_even (y : R) : Z :=
  if Rlt_dec (frac_part y) (1/2) then Int_part y
  else if Rlt_dec (1/2) (frac_part y) then Int_part y + 1
  else if Z.even (Int_part y) then Int_part y else Int_part y + 1.
(** a natural number below 10^d in decimal, with zeros in front up to [d] digits [the fraction of '.4f' and '.6f' in CITestResult.py:233-236] *)
Fixpoint zero_padded (d : nat) (n : Z) : text :=
  match d with O => [] | S d' => (zero_padded d' (n / 10) ++ [Z.to_nat (48 + n mod 10)])%list end.
(** '{:.df}' of a float [CITestResult.py:233-236, 257] *)
Definition fixed (d : nat) (f : float) : text :=
  match f with
  | NaN => lit "nan"
  | Num x =>
    let n := round_even (Rabs x * IZR (10 ^ Z.of_nat d)) in
    ((if Rlt_dec x 0 then [45%nat] else []) ++ str_int (n / 10 ^ Z.of_nat d) ++ [46%nat] ++ zero_padded d (n mod 10 ^ Z.of_nat d))%list
  end.
(** a field with a format specification: None and [] raise TypeError [CITestResult.py:232-235, 256] *)
Definition shown_text (s : shown) : res text := match s with Shown t => Ok t | _ => Err TypeError end.
(** a number with a format specification: None raises TypeError [CITestResult.py:233-235] *)
Definition number_text (d : nat) (f : option float) : res text := match f with Some f => Ok (fixed d f) | None => Err TypeError end.
(** a field without one: str(None) is 'None' [CITestResult.py:234-235] *)
Definition plain_text (t : option text) : text := match t with Some t => t | None => lit "None" end.

(** extra_info: None, a str, or an int as the d-separation tests set it (CITestResult.py:33, DSeparationCITest.py:20, 56) *)
Inductive extra := NoInfo | TextInfo (t : text) | IntInfo (i : Z).
(** the truth value of an attribute that is None, True or False (CITestResult.py:192, 212) *)
Definition truthy (b : option bool) : bool := match b with Some true => true | _ => false end.

(** the part that the two renderings share: CITestResult.py:231-232 and 255-256 *)
Definition render_head (c : ci_result) : res text :=
  X <- shown_text (cX c) ;; Y <- shown_text (cY c) ;; Zt <- shown_text (cZ c) ;;
  Ok (lit "CI test " ++ str_int (index c) ++ lit ": " ++ pad_left 4 X ++ lit " " ++ [perp_sign] ++ lit " " ++ pad_right 4 Y ++ lit " | " ++ pad_right 20 Zt ++ lit ": ")%list.
(** the other one: CITestResult.py:236 and 257 *)
Definition render_duration (duration : float) : text := (lit ", " ++ [delta_sign] ++ lit "t=" ++ pad_left 10 (fixed 4 duration) ++ lit "s")%list.
(** lines 211-227: i_or_d *)
Definition verdict_text (c : ci_result) : text :=
  ((if truthy (independent c) then lit "I" else lit "D") ++
   match accurate c with None => [] | Some true => [check_sign] | Some false => [cross_sign] end)%list.
(** startcode and endcode (lines 208-209, 224-225) *)
Definition codes (c : ci_result) : text * text := match accurate c with Some false => (RED, ENDC) | _ => ([], []) end.
(** render__sufficient_samples (205-240), formatted (197) *)
Definition render_sufficient (c : ci_result) (duration : float) : res text :=
  let '(startcode, endcode) := codes c in
  head <- render_head c ;;
  significance <- number_text 4 (c_significance c) ;;
  value <- number_text 6 (statistic_value c) ;;
  p <- number_text 6 (p_value c) ;;
  Ok (startcode ++ head ++ verdict_text c ++ lit " @ " ++ pad_left 6 significance ++ lit " with " ++ plain_text (statistic c) ++ lit "=" ++
      pad_left 8 value ++ lit " at p=" ++ pad_right 8 p ++ lit " on " ++ plain_text (test_distribution c) ++ render_duration duration ++ endcode)%list.
(** render__insufficient_samples (243-261), formatted (197) *)
Definition render_insufficient (c : ci_result) (duration : float) : res text :=
  head <- render_head c ;;
  Ok (YELLOW ++ head ++ lit "INSUFFICIENT SAMPLES" ++ render_duration duration ++ ENDC)%list.
(** __str__ (191-202): an extra_info that is no str cannot be added to the text *)
Definition str_result (c : ci_result) (duration : float) (extra_info : extra) : res text :=
  output <- (if negb (truthy (insufficient_samples c)) then render_sufficient c duration else render_insufficient c duration) ;;
  match extra_info with NoInfo => Ok output | TextInfo t => Ok (output ++ t)%list | IntInfo _ => Err TypeError end.

(** print(result), one after the other, without extra_info (DSeparationCITest.py:39 and print_ci_test_result in
    G_test__unoptimized__debug.py:23-30): each text and a line break *)
Fixpoint print_results (l : list (ci_result * float)) : res text :=
  match l with
  | [] => Ok []
  | (c, duration) :: l' => t <- str_result c duration NoInfo ;; rest <- print_results l' ;; Ok (t ++ 10%nat :: rest)%list
  end.

(** ** The results of the d-separation tests (DSeparationCITest.py:24-41) *)
(** the name of the statistic and of the distribution (DSeparationCITest.py:34-35) *)
Definition none_name : text := lit "None".
(** DSeparationCITest.conditionally_independent_result (24-41) for the columns X, Y, Z and the answer [b] of the network *)
Definition dsep_report (position : nat) (X Y : nat) (Zs : list nat) (b : bool) : ci_result :=
  set_distribution none_name (Num 0) None (set_statistic none_name (Num 0) None (set_d_separation (Some b)
    (set_variables (RInt (Z.of_nat X)) (RInt (Z.of_nat Y)) (RList (map Z.of_nat Zs))
      (set_independent b (Num 0) (set_index (Z.of_nat position) fresh_result))))).
(** extra_info when conditionally_independent (18-21), compute (54-61), or conditionally_independent_result itself was called *)
Inductive dsep_call := AsTest | AsHeuristic | ResultOnly.
(** DSeparationCITest.py:5-6, 20, 56 *)
Definition dsep_extra (k : dsep_call) : extra := match k with AsTest => IntInfo 0 | AsHeuristic => IntInfo 1 | ResultOnly => NoInfo end.
