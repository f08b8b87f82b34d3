(** Dates as RFC 822 writes them: "Wed, 26 Jun 2013 01:02:54 -0600". *)
From Coq Require Import String.
From Verif Require Import Base NumFmt WildSpec CalendarSpec.

(** [t] is the number [n] in decimal digits, possibly with leading zeros. *)
Definition number_text (n : Z) (t : list Z) : Prop := t <> [] /\ Forall digit t /\ pdigits 0 t = n.
(** No white space. *)
Definition one_word (t : list Z) : Prop := t <> [] /\ Forall (fun c => c <> 32 /\ ~ (9 <= c <= 13)) t.
Definition month_texts : list (list Z) :=
  map str ["Jan"; "Feb"; "Mar"; "Apr"; "May"; "Jun"; "Jul"; "Aug"; "Sep"; "Oct"; "Nov"; "Dec"]%string.
(** Minutes east of Greenwich of "+hhmm" and "-hhmm". *)
Inductive zone_text : Z -> list Z -> Prop :=
| zt_east h hh m mm : number_text h hh -> length hh = 2%nat -> number_text m mm -> length mm = 2%nat -> m < 60 ->
    zone_text (60 * h + m) (43 :: hh ++ mm)
| zt_west h hh m mm : number_text h hh -> length hh = 2%nat -> number_text m mm -> length mm = 2%nat -> m < 60 ->
    zone_text (- (60 * h + m)) (45 :: hh ++ mm).

Inductive date_text : Z -> Z -> Z -> Z -> Z -> Z -> Z -> list Z -> Prop :=
| dt y mo d h mi s zone wd ty tmo td th tmi ts tz :
    one_word wd -> number_text d td -> (exists name, nth_error month_texts (Z.to_nat (mo - 1)) = Some name /\ map lc tmo = map lc name) ->
    1 <= mo <= 12 -> number_text y ty -> number_text h th -> number_text mi tmi -> number_text s ts -> zone_text zone tz ->
    date_text y mo d h mi s zone
      (wd ++ str " " ++ td ++ str " " ++ tmo ++ str " " ++ ty ++ str " " ++ th ++ str ":" ++ tmi ++ str ":" ++ ts ++ str " " ++ tz).
