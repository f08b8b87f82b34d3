(** Proofs about identifiers. *)
From Verif Require Import Base IdModel IdSpec.

Definition id_inv (s : idstate) : Prop :=
  NoDup (i_live s) /\ Forall (fun id => 0 < id <= g_gen (i_gen s)) (i_live s) /\ 0 <= g_gen (i_gen s).

Lemma drop_in x id l : In x (drop_id id l) -> In x l.
Proof.
  induction l as [|y l IH]; cbn [drop_id]; [tauto|]. destruct (y =? id); [right; assumption|].
  intros [->|H]; [left; reflexivity|right; auto].
Qed.
Lemma drop_nodup id l : NoDup l -> NoDup (drop_id id l).
Proof.
  induction 1 as [|y l N H IH]; cbn [drop_id]; [constructor|]. destruct (y =? id); [assumption|].
  constructor; [intros X; apply drop_in in X; contradiction|assumption].
Qed.

Lemma load_one_max g x : g_max g <= g_max (load_one g x) /\ snd x <= g_max (load_one g x).
Proof.
  unfold load_one, set_id. destruct (fst x); cbn [fst new_id g_max]; destruct (g_max g <? snd x) eqn:E; lia.
Qed.
Lemma load_fold saved : forall g, g_max g <= g_max (fold_left load_one saved g) /\
  Forall (fun x => snd x <= g_max (fold_left load_one saved g)) saved.
Proof.
  induction saved as [|x l IH]; intros g; cbn [fold_left].
  - split; [lia|constructor].
  - destruct (IH (load_one g x)) as [A B]. destruct (load_one_max g x) as [C D]. split; [lia|].
    constructor; [lia|exact B].
Qed.

Lemma id_inv_step s o : saved_ok o -> id_inv s -> id_inv (id_step s o).
Proof.
  intros OK (N & F & P). destruct o as [|id|id|saved]; cbn [id_step].
  - unfold id_inv. cbn [i_live i_gen new_id g_gen]. split; [|split; [|lia]].
    + constructor; [|exact N]. intros H. rewrite Forall_forall in F. specialize (F _ H). lia.
    + constructor; [lia|]. eapply Forall_impl; [|exact F]. intros x. cbv beta. lia.
  - unfold id_inv. cbn [i_live i_gen]. split; [apply drop_nodup, N|]. split; [|exact P].
    rewrite Forall_forall in *. intros x H. apply F. eapply drop_in, H.
  - destruct (existsb _ _); [|split; auto]. unfold id_inv. cbn [i_live i_gen set_id g_gen]. auto.
  - destruct OK as [ON OF]. unfold id_inv, load_all. cbn [i_live i_gen reset_max g_gen].
    destruct (load_fold saved (mkGen 0 0)) as [A B]. cbn [g_max] in A.
    split; [exact ON|]. split; [|exact A].
    rewrite Forall_forall in *. intros x H. apply in_map_iff in H as (y & <- & H). split; [apply OF, H|apply B, H].
Qed.
Lemma id_inv_run ops : forall s, Forall saved_ok ops -> id_inv s -> id_inv (id_run ops s).
Proof.
  unfold id_run. induction ops as [|o l IH]; intros s F I; [exact I|]. cbn [fold_left].
  apply IH; [inversion F; assumption|apply id_inv_step; [inversion F; assumption|exact I]].
Qed.
Lemma ids_unique saved ops : saved_ok (IRestart saved) -> Forall saved_ok ops ->
  let s := id_run ops (id_step (mkIds (mkGen 0 0) []) (IRestart saved)) in
  NoDup (i_live s) /\ ~ In (snd (new_id (i_gen s))) (i_live s).
Proof.
  intros S0 F s. assert (I : id_inv s).
  { apply id_inv_run; [exact F|]. apply id_inv_step; [exact S0|]. split; [constructor|]. split; [constructor|reflexivity || (cbn; lia)]. }
  destruct I as (N & B & P). split; [exact N|]. cbn [new_id snd]. intros H. rewrite Forall_forall in B. specialize (B _ H). lia.
Qed.
