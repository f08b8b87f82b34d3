(** C82: dates of feed items. *)
From Coq Require Import String.
From Verif Require Import Base NumFmt WildSpec CalendarModel CalendarSpec CalendarProofs Rfc822Model Rfc822Spec Rfc822Proofs.
Open Scope list_scope. Open Scope Z_scope.

(** The moment named by the text, in seconds since 1970. Missing: zones less than an hour
    east of Greenwich (next theorem) and zones given by name, which the code does not know. *)
Theorem C82_rfc822_partial : forall y mo d h mi s zone t, date_text y mo d h mi s zone t ->
  (zone < 0 \/ 60 <= zone \/ zone = 0) ->
  parse_rfc822 t = timegm (tm_of (y, mo, d) h mi s) - 60 * zone.
Proof. exact rfc822_ok. Qed.
Print Assumptions C82_rfc822_partial.

Ltac num := split; [discriminate|]; split; [repeat constructor; cbv; discriminate|reflexivity].
(** "+0030" is taken for "-0030". *)
Theorem C82_half_hour_east_refuted : exists y mo d h mi s zone t, date_text y mo d h mi s zone t /\
  parse_rfc822 t = timegm (tm_of (y, mo, d) h mi s) + 60 * zone /\ zone = 30.
Proof.
  exists 2013, 6, 26, 1, 2, 54, 30, (str "Wed, 26 Jun 2013 01:02:54 +0030").
  split; [|split; [vm_compute; reflexivity|reflexivity]].
  refine (dt 2013 6 26 1 2 54 30 (str "Wed,") (str "2013") (str "Jun") (str "26") (str "01") (str "02") (str "54") (str "+0030") _ _ _ _ _ _ _ _ _).
  - split; [discriminate|]. repeat constructor; cbv; try discriminate; intros [H H']; try (apply H; reflexivity); try (apply H'; reflexivity).
  - num.
  - eexists. split; reflexivity.
  - lia.
  - num.
  - num.
  - num.
  - num.
  - refine (zt_east 0 (str "00") 30 (str "30") _ _ _ _ _); [num|reflexivity|num|reflexivity|lia].
Qed.
Print Assumptions C82_half_hour_east_refuted.

Example C82_ex : date_text 2013 6 26 1 2 54 (-360) (str "Wed, 26 Jun 2013 01:02:54 -0600") /\
  parse_rfc822 (str "Wed, 26 Jun 2013 01:02:54 -0600") = 1372230174.
Proof.
  split; [|vm_compute; reflexivity].
  refine (dt 2013 6 26 1 2 54 (-360) (str "Wed,") (str "2013") (str "Jun") (str "26") (str "01") (str "02") (str "54") (str "-0600") _ _ _ _ _ _ _ _ _).
  - split; [discriminate|]. repeat constructor; cbv; try discriminate; intros [H H']; try (apply H; reflexivity); try (apply H'; reflexivity).
  - num.
  - eexists. split; reflexivity.
  - lia.
  - num.
  - num.
  - num.
  - num.
  - refine (zt_west 6 (str "06") 0 (str "00") _ _ _ _ _); [num|reflexivity|num|reflexivity|lia].
Qed.
