(** What the binary remote protocol is to do. *)
From Coq Require Import String.
From Verif Require Import Base WildModel BinModel.
Open Scope list_scope. Open Scope Z_scope.

Definition no_nul (s : list Z) : Prop := ~ In 0 s.
Definition is_int (v : Z) : Prop := - 2 ^ 31 <= v < 2 ^ 31.
Definition is_uint (v : Z) : Prop := 0 <= v < 2 ^ 32.
(** A request: signature, size, type, user, password, the rest. *)
Definition request (inp sg sz t u p rest : list Z) : Prop :=
  inp = sg ++ sz ++ t ++ u ++ p ++ rest /\ length sg = 4%nat /\ length sz = 4%nat /\ length t = 4%nat /\ length u = 32%nat /\ length p = 32%nat.
(** User and password of the request are right; no user is needed if none is configured. *)
Definition right_login (user pass u p : list Z) : Prop :=
  (user <> [] -> exists x, u ++ p = user ++ 0 :: x) /\ exists y, p = pass ++ 0 :: y.

(** A text fits into a field. *)
Definition in_field (s : list Z) : Prop := no_nul s /\ (length s <= Z.to_nat 511)%nat.
Definition in_login (s : list Z) : Prop := no_nul s /\ (length s <= Z.to_nat 31)%nat.
Definition begins_ci (w s : list Z) : Prop := exists a r, s = a ++ r /\ map lower a = map lower w.
Definition differs (w s : list Z) : Prop := exists a b r a1 c w1, s = a ++ b :: r /\ w = a1 ++ c :: w1 /\ map lower a = map lower a1 /\ lower b <> lower c.
(** Commands a client can send. *)
Definition sane (c : cmd) : Prop :=
  match c with
  | CDownload u n cat key content _ _ prio score mode =>
    in_field n /\ in_field cat /\ in_field key /\ is_int prio /\ is_int score /\ is_int mode /\ zlen content + 1 < 2 ^ 31 /\
    if u then no_nul content /\ (begins_ci (str "http:/") content \/ (differs (str "http:/") content /\ begins_ci (str "https:/") content))
    else differs (str "http:/") content /\ differs (str "https:/") content
  | CPause _ a => is_uint a
  | CList f _ m _ p => is_uint m /\ match p with Some x => in_field x /\ m = 3 /\ f = true | None => m <> 3 \/ f = false end
  | CRate r => is_int r
  | CEdit a m o t ids names =>
    is_int a /\ is_int m /\ is_int o /\ Forall is_int ids /\ Forall no_nul names /\ (ids <> [] \/ names <> []) /\
    match t with Some s => no_nul s /\ a <> 1 /\ a <> 11 | None => True end /\
    zlen (edit_text t) + 4 * Z.of_nat (length ids) + zlen (concat (map (fun n => n ++ [0]) names)) + 4 < 2 ^ 31
  | CLog f l => is_uint f /\ is_int l
  | CWriteLog k t => 0 <= k < 5 /\ no_nul t /\ zlen t + 1 < 2 ^ 31
  | _ => True
  end.

(** Entries with numbers of 32 bits and texts; the shape: numbers of words and texts. *)
Definition entry_ok (nb nt na : nat) (e : entry) : Prop :=
  length (e_before e) = nb /\ length (e_texts e) = nt /\ length (e_after e) = na /\ Forall is_uint (e_before e) /\ Forall is_uint (e_after e) /\ Forall no_nul (e_texts e).
(** Downloads with their parameters and files, not counting the positions. *)
Definition item_ok (i : item) : Prop :=
  entry_ok 12 5 0 (i_entry i) /\ Forall (entry_ok 0 2 0) (i_params i) /\ Forall (entry_ok 9 2 0) (i_files i).

(** Identifiers of messages are consecutive. *)
Definition consecutive (ids : list Z) : Prop := forall k v w, nth_error ids k = Some v -> nth_error ids (S k) = Some w -> w = v + 1.
