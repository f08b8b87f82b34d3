(** What is to happen on a connection to a news server. *)
From Coq Require Import String.
From Verif Require Import Base NntpModel.
Open Scope list_scope. Open Scope Z_scope.

Definition begins (w l : list Z) : Prop := exists r, l = w ++ r.
Definition ended (t : list Z) : list Z := t ++ [13; 10].
(** The commands sent: those of the operations, and the name and the password. *)
Inductive command (s : server) (ops : list nop) : list Z -> Prop :=
| cm_user : command s ops (cut (ended (str "AUTHINFO USER " ++ s_user s)))
| cm_pass : command s ops (cut (ended (str "AUTHINFO PASS " ++ s_pass s)))
| cm_group g : In (OJoin g) ops -> command s ops (cut (ended (str "GROUP " ++ g)))
| cm_body id : In (OGet false id) ops -> command s ops (cut (ended (str "BODY " ++ id)))
| cm_article id : In (OGet true id) ops -> command s ops (cut (ended (str "ARTICLE " ++ id)))
| cm_quit : command s ops (ended (str "quit")).
(** One line with its end. *)
Definition one_line (t : list Z) : Prop := exists a, t = ended a /\ ~ In 13 a /\ ~ In 10 a.
Definition clean (x : list Z) : Prop := ~ In 13 x /\ ~ In 10 x /\ (length x <= Z.to_nat 1000)%nat.
Definition clean_op (o : nop) : Prop := match o with OJoin g => clean g | OGet _ id => clean id | _ => True end.

(** The part behind the last opening of a connection. *)
Definition session (h e : list ev) : Prop := exists a, h = a ++ Open :: e /\ ~ In Open e.
(** The password is sent only if it was asked for just before. *)
Definition asked (h : list ev) (t : list Z) : Prop := forall a b, h = a ++ W t :: b -> exists a1 l, a = a1 ++ [R l] /\ begins (str "381") l.
(** The name is sent after the greeting or when authorization was asked for. *)
Definition invited (h : list ev) (t : list Z) : Prop := forall a b, h = a ++ W t :: b -> exists a1 l, a = a1 ++ [R l] /\ (begins (str "2") l \/ begins (str "480") l).
(** The server has let the user in. *)
Definition accepted (s : server) (e : list ev) : Prop := exists a t l, e = a ++ [W t; R l] /\ begins (str "2") l /\ (t = user_line s \/ t = pass_line s).

(** The group the server was last told to select and said yes, in the list of events. *)
Inductive selected : list ev -> list Z -> Prop :=
| sel_yes e g l : begins (str "2") l -> selected (e ++ [W (cut (ended (str "GROUP " ++ g))); R l]) g
| sel_other e g x : selected e g -> (forall g1 l, x = R l -> begins (str "2") l -> ~ exists e1, e = e1 ++ [W (cut (ended (str "GROUP " ++ g1)))]) -> x <> Open -> selected (e ++ [x]) g.
Definition sends (h : list ev) : nat := length (filter (fun e => match e with W _ => true | _ => false end) h).
(** Connections are given up or opened only when they are in order or closed. *)
Definition kept_up (n : net) (s : server) (ops : list nop) : Prop :=
  forall p o q, ops = p ++ o :: q -> o = OConnect \/ o = ODisconnect -> c_status (nrun n s p) = Conn \/ c_status (nrun n s p) = Disc.
