(** Model of the dates of feed items: daemon/util/Util.cpp:1358-1402,
    [WebUtil::ParseRfc822DateTime]. sscanf of the C library is modelled for the conversions
    used; overflow of [int] is not modelled. *)
From Coq Require Import String.
From Verif Require Import Base NumFmt InfoModel FeedModel CalendarModel.

(** Digits, at most [w]. *)
Fixpoint scan_digits (w : nat) (l : list Z) : list Z * list Z :=
  match w, l with
  | S w', c :: t => if is_digit c then let '(a, b) := scan_digits w' t in (c :: a, b) else ([], l)
  | _, _ => ([], l)
  end.
(** %d with field width [w]: white space, sign, digits; the sign counts. *)
Definition scan_int (w : nat) (l : list Z) : option (Z * list Z) :=
  let l := skip_space l in
  let '(neg, w, l) :=
    match l with
    | c :: t => if c =? 45 then (true, Nat.pred w, t) else if c =? 43 then (false, Nat.pred w, t) else (false, w, l)
    | [] => (false, w, l)
    end in
  match scan_digits w l with
  | ([], _) => None
  | (ds, rest) => Some (if neg then - pdigits 0 ds else pdigits 0 ds, rest)
  end.
(** Characters other than white space, at most [w]. *)
Fixpoint scan_word (w : nat) (l : list Z) : list Z * list Z :=
  match w, l with
  | S w', c :: t => if is_space c then ([], l) else let '(a, b) := scan_word w' t in (c :: a, b)
  | _, _ => ([], l)
  end.
(** %s with field width [w]. *)
Definition scan_str (w : nat) (l : list Z) : option (list Z * list Z) :=
  match scan_word w (skip_space l) with ([], _) => None | r => Some r end.
(** The colons of the format. *)
Definition scan_colon (l : list Z) : option (list Z) :=
  match l with c :: t => if c =? 58 then Some t else None | [] => None end.

(** daemon/util/Util.cpp:1378-1390; an unknown name leaves [mon] at 0. *)
Definition month_names : list (list Z) :=
  map str ["Jan"; "Feb"; "Mar"; "Apr"; "May"; "Jun"; "Jul"; "Aug"; "Sep"; "Oct"; "Nov"; "Dec"]%string.
Fixpoint month_of (names : list (list Z)) (n : Z) (m : list Z) : Z :=
  match names with [] => 0 | x :: r => if same_nocase m x then n else month_of r (n + 1) m end.

(** daemon/util/Util.cpp:1368-1402; widths beyond the text stand for "no width". *)
Definition parse_rfc822 (s : list Z) : Z :=
  let all := length s in
  match
    obind (scan_str all s) (fun '(_, s) =>
    obind (scan_int all s) (fun '(day, s) =>
    obind (scan_str 3 s) (fun '(month, s) =>
    obind (scan_int all s) (fun '(year, s) =>
    obind (scan_int all s) (fun '(hours, s) =>
    obind (scan_colon s) (fun s =>
    obind (scan_int all s) (fun '(minutes, s) =>
    obind (scan_colon s) (fun s =>
    obind (scan_int all s) (fun '(seconds, s) =>
    obind (scan_int 3 s) (fun '(zonehours, s) =>
    obind (scan_int 2 s) (fun '(zoneminutes, s) =>
      Some (rfc822_time (mkTm (year - 1900) (month_of month_names 0 month) day hours minutes seconds)
              zonehours zoneminutes))))))))))))
  with
  | None => 0
  | Some t => t
  end.
