(** C165-C168: the binary remote protocol. *)
From Coq Require Import String.
From Verif Require Import Base WildModel BinModel BinSpec BinProofs BinProofs2 BinProofs3 BinProofs4.
From Verif Require StatusModel.
Open Scope list_scope. Open Scope Z_scope.

(** C165: nothing is done for a request which has not the signature, the right user and password, a known type and the size of that type. *)
Theorem C165_login : forall user pass inp o, serve user pass inp = o -> (exists c, o = Exec c) \/ o = Negative ->
  exists sg sz t u p rest, request inp sg sz t u p rest /\ word sg = signature /\ right_login user pass u p /\ 1 <= word t <= 14 /\ word sz = nth (Z.to_nat (word t)) sizes 0.
Proof. exact serve_exec. Qed.
Print Assumptions C165_login.
Theorem C165_wrong : forall user pass inp sg sz t u p rest a x, request inp sg sz t u p rest -> no_nul user -> no_nul pass -> no_nul a ->
  (exists b y, u = b ++ 0 :: y /\ no_nul b) -> p = a ++ 0 :: x -> a <> pass \/ (exists b y, user <> [] /\ u = b ++ 0 :: y /\ no_nul b /\ b <> user) -> serve user pass inp = Refused.
Proof. exact serve_wrong. Qed.
Print Assumptions C165_wrong.
Definition x_user : list Z := str "nzbget".
Definition x_pass : list Z := str "tegbzn6789".
Definition x_pause : list Z := client (fun _ => 0) x_user x_pass (CPause true 1).
Example C165_login_example : exists c, serve x_user x_pass x_pause = Exec c.
Proof. exists (CPause true 1). vm_compute. reflexivity. Qed.
Example C165_wrong_example : serve x_user (str "secret") x_pause = Refused /\ exists sg sz t u p rest, request x_pause sg sz t u p rest /\ p = x_pass ++ 0 :: repeat 0 21.
Proof.
  split; [vm_compute; reflexivity|]. exists (firstn 4 x_pause), (firstn 4 (skipn 4 x_pause)), (firstn 4 (skipn 8 x_pause)), (firstn 32 (skipn 12 x_pause)), (firstn 32 (skipn 44 x_pause)), (skipn 76 x_pause).
  split; [|vm_compute; reflexivity]. unfold request. repeat split; vm_compute; reflexivity.
Qed.
(** A password longer than the field: the own client never gets in, and the comparison runs out of the structure for those who know the beginning. *)
Definition x_long : list Z := repeat 97 40.
Theorem C165_long_refuted : exists user pass c, no_nul user /\ no_nul pass /\ sane c /\ serve user pass (client (fun _ => 0) user pass c) = Refused.
Proof.
  exists x_user, x_long, CVersion. split; [|split; [|split; [exact Logic.I|vm_compute; reflexivity]]].
  - vm_compute. intuition discriminate.
  - unfold no_nul, x_long. intros H. apply repeat_spec in H. discriminate.
Qed.
Print Assumptions C165_long_refuted.
Theorem C165_outside_refuted : exists user pass inp, no_nul user /\ no_nul pass /\ serve user pass inp = Undefined.
Proof.
  exists [], x_long, (w32 signature ++ w32 76 ++ w32 10 ++ repeat 97 64). split; [intros []|split; [|vm_compute; reflexivity]].
  unfold no_nul, x_long. intros H. apply repeat_spec in H. discriminate.
Qed.
Print Assumptions C165_outside_refuted.

(** C166: what the client sends arrives as it was meant, whatever is in the memory never set. *)
Theorem C166_round_trip : forall g user pass c, in_login user -> in_login pass -> sane c -> serve user pass (client g user pass c) = Exec c.
Proof. exact round_trip. Qed.
Print Assumptions C166_round_trip.
Definition x_edit : cmd := CEdit 21 1 0 (Some (str "Movies")) [7; 12] [str "one"; str "second"].
Example C166_round_trip_example : in_login x_user /\ in_login x_pass /\ sane x_edit /\ sane (CDownload true [] (str "tv") [] (str "https://host/a.nzb") true false 50 0 0).
Proof.
  assert (N : forall s, existsb (Z.eqb 0) s = false -> no_nul s).
  { intros s H Q. assert (X : existsb (Z.eqb 0) s = true) by (apply existsb_exists; exists 0; split; [exact Q|reflexivity]). congruence. }
  assert (F : forall s, existsb (Z.eqb 0) s = false -> (length s <=? Z.to_nat 511)%nat = true -> in_field s) by (intros s A B; split; [apply N, A|apply Nat.leb_le, B]).
  split; [split; [apply N; reflexivity|apply Nat.leb_le; vm_compute; reflexivity]|]. split; [split; [apply N; reflexivity|apply Nat.leb_le; vm_compute; reflexivity]|]. split.
  - unfold x_edit, sane, is_int. repeat split; try lia; try (repeat constructor; unfold is_int; try lia; apply N; reflexivity); try (left; discriminate); try (apply N; reflexivity); vm_compute; reflexivity.
  - unfold sane. split; [apply F; vm_compute; reflexivity|]. split; [apply F; vm_compute; reflexivity|]. split; [apply F; vm_compute; reflexivity|]. unfold is_int. repeat split; try lia; try (vm_compute; reflexivity).
    + apply N. vm_compute. reflexivity.
    + right. split.
      * exists (str "http"), 115, (str "://host/a.nzb"), (str "http"), 58, (str "/"). repeat split; try reflexivity. vm_compute. discriminate.
      * exists (str "https:/"), (str "/host/a.nzb"). split; reflexivity.
Qed.
(** A request with the right password can make the server read outside of its memory: a URL without its NUL, a negative length of the text, more names than sent. *)
Theorem C166_url_refuted : exists user pass inp, serve user pass inp = Undefined /\ in_login user /\ in_login pass /\
  exists b, inp = base user pass 1 ++ b.
Proof.
  exists [], [], (base [] [] 1 ++ repeat 0 (Z.to_nat 1556) ++ w32 8 ++ str "http://a"). split; [vm_compute; reflexivity|].
  split; [split; [intros []|apply Nat.leb_le; vm_compute; reflexivity]|]. split; [split; [intros []|apply Nat.leb_le; vm_compute; reflexivity]|]. eexists. reflexivity.
Qed.
Print Assumptions C166_url_refuted.
Theorem C166_edit_refuted : exists user pass text names, in_login user /\ in_login pass /\
  serve user pass (base user pass 6 ++ w32 12 ++ w32 0 ++ w32 1 ++ w32 1 ++ w32 0 ++ w32 4 ++ w32 (-4) ++ w32 4 ++ text) = Undefined /\
  serve user pass (base user pass 6 ++ w32 12 ++ w32 0 ++ w32 2 ++ w32 0 ++ w32 2 ++ w32 4 ++ w32 0 ++ w32 4 ++ names) = Undefined.
Proof.
  exists [], [], [0; 0; 0; 7], (str "abc" ++ [0]). split; [split; [intros []|apply Nat.leb_le; vm_compute; reflexivity]|]. split; [split; [intros []|apply Nat.leb_le; vm_compute; reflexivity]|].
  split; vm_compute; reflexivity.
Qed.
Print Assumptions C166_edit_refuted.

(** C167: the lists sent are as long as the memory reserved and announced, and the client reads from them what was written. *)
Theorem C167_size : forall es, zlen (put_all 0 es) = size_of es /\ zlen (put_all 0 es) = size_each es.
Proof. exact (fun es => conj (size_of_ok es) (size_each_ok es)). Qed.
Print Assumptions C167_size.
Theorem C167_list_size : forall q, zlen (put_list q) = size_list q.
Proof. exact size_list_ok. Qed.
Print Assumptions C167_list_size.
Theorem C167_read : forall nb nt na es, (1 <= nt)%nat -> Forall (entry_ok nb nt na) es -> zlen (put_all 0 es) < 2 ^ 32 -> get_all (length es) nb nt na (put_all 0 es) = Some (es, []).
Proof. exact get_all_ok. Qed.
Print Assumptions C167_read.
Theorem C167_list : forall q, Forall item_ok q -> zlen (put_list q) < 2 ^ 32 -> get_list (length q) (length (flat_map i_params q)) (length (flat_map i_files q)) (put_list q) = Some q.
Proof. exact get_list_ok. Qed.
Print Assumptions C167_list.
Definition x_queue : list item :=
  [I (E [5; 0; 100; 0; 50; 0; 0; 0; 0; 2; 0; 0] [str "a.nzb"; str "a"; str "/dst/a"; []; str "a.nzb.queued"] []) [] [E [9; 100; 0; 50; 0; 1; 0; 3; 0] [str "subject"; str "a.rar"] []];
   I (E [6; 0; 7; 0; 7; 0; 0; 0; 0; 0; 0; 0] [str "b.nzb"; str "b"; str "/dst/b"; str "tv"; str "b.nzb.queued"] []) [E [] [str "*Unpack:"; str "yes"] []] []].
Example C167_list_example : Forall item_ok x_queue /\ zlen (put_list x_queue) < 2 ^ 32.
Proof.
  split; [|vm_compute; reflexivity]. assert (N : forall s, existsb (Z.eqb 0) s = false -> no_nul s).
  { intros s H Q. assert (X : existsb (Z.eqb 0) s = true) by (apply existsb_exists; exists 0; split; [exact Q|reflexivity]). congruence. }
  unfold x_queue. repeat constructor; unfold is_uint; try lia; apply N; reflexivity.
Qed.

(** C168: of the log the messages asked for are sent, as many as announced. *)
Theorem C168_last : forall (A : Type) (id : A -> Z) (msgs : list A) lines start nr, 0 < lines -> log_range 0 lines (map id msgs) = (start, nr) ->
  nr = Z.min lines (Z.of_nat (length msgs)) /\ (exists before, msgs = before ++ log_sent start msgs) /\ Z.of_nat (length (log_sent start msgs)) = nr.
Proof. exact log_last. Qed.
Print Assumptions C168_last.
Theorem C168_from_partial : forall (A : Type) (id : A -> Z) (msgs : list A) from lines start nr, consecutive (map id msgs) -> 0 < from < 2 ^ 31 -> (forall m, In m msgs -> 0 <= id m < 2 ^ 31) -> msgs <> [] ->
  log_range from lines (map id msgs) = (start, nr) -> log_sent start msgs = filter (fun m => from <=? id m) msgs /\ nr = Z.of_nat (length (log_sent start msgs)).
Proof. exact log_from. Qed.
Print Assumptions C168_from_partial.
Example C168_last_example : log_range 0 2 (map fst [(3, str "a"); (4, str "b"); (5, str "c")]) = (1, 2) /\ consecutive [3; 4; 5].
Proof.
  split; [reflexivity|]. intros k v w A B. destruct k as [|[|[|k]]]; cbn in A, B; try (injection A as <-; injection B as <-; reflexivity); try discriminate B; destruct k; discriminate A.
Qed.
(** Behind the last identifier by more than the half of the range of numbers: the whole log; a negative number of lines: announced as it is. *)
Theorem C168_from_refuted : exists ids from, consecutive ids /\ (forall i, In i ids -> i < from < 2 ^ 32) /\ log_range from 0 ids = (0, Z.of_nat (length ids)) /\ ids <> [].
Proof.
  exists [1; 2], (2 ^ 31 + 1). split; [|split; [|split; [vm_compute; reflexivity|discriminate]]].
  - intros k v w A B. destruct k as [|[|k]]; cbn in A, B; try (injection A as <-; injection B as <-; reflexivity); try discriminate B; destruct k; discriminate B.
  - intros i [<-|[<-|[]]]; lia.
Qed.
Print Assumptions C168_from_refuted.
Theorem C168_negative_refuted : exists lines ids start nr, is_int lines /\ log_range 0 lines ids = (start, nr) /\ nr <> Z.of_nat (length (log_sent start ids)).
Proof. exists (-1), [1; 2], 2, (-1). split; [unfold is_int; lia|]. split; [reflexivity|]. vm_compute. discriminate. Qed.
Print Assumptions C168_negative_refuted.
(** The history shown by the client: all scripts were successful, and "Script failed" is shown. *)
Theorem C168_scripts_refuted : exists l, l <> [] /\ (forall s, In s l -> s = StatusModel.srSuccess) /\ shown_scripts l = Some (str ", Script failed").
Proof. exists [StatusModel.srSuccess]. split; [discriminate|]. split; [intros s [<-|[]]; reflexivity|vm_compute; reflexivity]. Qed.
Print Assumptions C168_scripts_refuted.
