(** How an RSS-feed is written and what it says about its items; independent of how it is read. *)
From Coq Require Import String.
From Verif Require Import Base NumFmt WildSpec WebModel NzbModel NzbSpec Rfc822Model FfModel.
Open Scope list_scope. Open Scope Z_scope.

Definition atts := list (list Z * list Z).
(** An element inside of an item: with a text, the enclosure, an attribute of the indexer, or anything else. *)
Inductive elem :=
| Simple (name : list Z) (a : option atts) (cs : list (list Z)) (t : list Z)
| Enclosure (a : atts) (cs : list (list Z))
| Attr (name n v : list Z) (more : atts) (cs : list (list Z))
| Other (e : ev).
Definition elem_evs (e : elem) : list ev :=
  match e with
  | Simple n a cs _ => EStart n a :: map EText cs ++ [EEnd n]
  | Enclosure a cs => EStart (str "enclosure") (Some a) :: map EText cs ++ [EEnd (str "enclosure")]
  | Attr name n v more cs => EStart name (Some ((str "name", n) :: (str "value", v) :: more)) :: map EText cs ++ [EEnd name]
  | Other e => [e]
  end.

(** The parser gives the text [t] in the pieces [cs]: no piece begins or ends with a blank inside of the text. *)
Definition tight (p : list Z) : Prop := (forall r c, p = c :: r -> ~ blank c) /\ (forall r c, p = r ++ [c] -> ~ blank c).
Definition text_pieces (cs : list (list Z)) (t : list Z) : Prop :=
  (exists b1 b2, concat cs = b1 ++ t ++ b2 /\ Forall blank b1 /\ Forall blank b2) /\
  exists ps, t = concat ps /\ Forall2 (fun c p => tight p /\ exists b b', c = b ++ p ++ b' /\ Forall blank b /\ Forall blank b') cs ps.

(** The name of the file in a title: the text in quotes if it has a dot (not at its beginning), without ".par2"; otherwise the whole title. *)
Definition like (a b : list Z) : Prop := map WildModel.lower a = map WildModel.lower b.
Definition dotted (b : list Z) : Prop := exists x y, b = x ++ 46 :: y /\ x <> [].
Definition par2_off (b f : list Z) : Prop :=
  (exists e, b = f ++ e /\ like e (str ".par2")) \/ (f = b /\ forall x e, b = x ++ e -> ~ like e (str ".par2")).
Inductive subject : list Z -> list Z -> Prop :=
| sj_none t : ~ In 34 t -> subject t t
| sj_open a b : ~ In 34 a -> ~ In 34 b -> b <> [] -> subject (a ++ 34 :: b) (a ++ 34 :: b)
| sj_name a b c f : ~ In 34 a -> ~ In 34 b -> dotted b -> par2_off b f -> subject (a ++ 34 :: b ++ 34 :: c) f
| sj_plain a b c : ~ In 34 a -> ~ In 34 b -> b <> [] -> ~ dotted b -> subject (a ++ 34 :: b ++ 34 :: c) (a ++ 34 :: b ++ 34 :: c).
(** The first quote is neither at the end nor followed by another one. *)
Definition title_ok (t : list Z) : Prop := forall a r, t = a ++ 34 :: r -> ~ In 34 a -> r <> [] /\ forall r', r <> 34 :: r'.

(** Tags in a description are replaced by blanks. *)
Definition stripped (t d : list Z) : Prop := exists (ps : list (list Z * list Z)) l,
  Forall (fun p => ~ In 60 (fst p) /\ ~ In 62 (snd p)) ps /\ (~ In 60 l \/ exists a b, l = a ++ 60 :: b /\ ~ In 60 a /\ ~ In 62 b) /\
  t = concat (map (fun p => fst p ++ 60 :: snd p ++ [62]) ps) ++ l /\
  d = concat (map (fun p => fst p ++ repeat 32 (2 + length (snd p))) ps) ++ l.

(** An address that is not taken for one with entities. *)
Definition plain_url (s : list Z) : Prop := s <> [] /\
  forall a b, s = a ++ 38 :: b -> b <> [] /\ forall e r, In e ["lt;"; "gt;"; "amp;"; "apos;"; "quot;"; "#"]%string -> b <> str e ++ r.

Definition simple_names : list (list Z) := map str ["title"; "link"; "category"; "description"; "pubDate"]%string.
Definition names : list (list Z) := map str ["item"; "enclosure"; "newznab:attr"; "nZEDb:attr"]%string ++ simple_names.
Definition other_ev (e : ev) : Prop := match e with EText _ => True | EStart n _ | EEnd n => ~ In n names end.
Definition elem_ok (e : elem) : Prop :=
  match e with
  | Simple n _ cs t => In n simple_names /\ text_pieces cs t /\ (n = str "title" -> title_ok t) /\ (n = str "description" -> t <> [] /\ ~ In 38 t)
  | Enclosure a _ => Forall (fun p => (fst p = str "url" -> plain_url (snd p)) /\ (fst p = str "length" -> atoll (snd p) <> 0)) a
  | Attr name _ _ _ _ => name = str "newznab:attr" \/ name = str "nZEDb:attr"
  | Other e => other_ev e
  end.

(** What the elements say. *)
Definition texts (n : list Z) (es : list elem) : list (list Z) :=
  flat_map (fun e => match e with Simple m _ _ t => if beqb n m then [t] else [] | _ => [] end) es.
Definition enclosed (n : list Z) (es : list elem) : list (list Z) :=
  flat_map (fun e => match e with Enclosure a _ => map snd (filter (fun p => beqb n (fst p)) a) | _ => [] end) es.
Definition attrs (es : list elem) : list (list Z * list Z) := flat_map (fun e => match e with Attr _ n v _ _ => [(n, v)] | _ => [] end) es.
Definition vals (n : list Z) (es : list elem) : list (list Z) := map snd (filter (fun p => beqb n (fst p)) (attrs es)).
Definition last_opt (l : list (list Z)) : option (list Z) := last (map Some l) None.
(** The number in the text of a season or an episode, with or without a letter. *)
Definition number_in (v : list Z) (n : Z) : Prop := v = zdec n \/ exists c, is_digit c = false /\ v = c :: zdec n.

Record item_is (es : list elem) (r : fi) : Prop := {
  i_title : f_title r = last_opt (texts (str "title") es);
  i_file : match f_title r with Some t => exists f, f_file r = Some f /\ subject t f | None => f_file r = None end;
  i_cat : f_cat r = last (texts (str "category") es) [];
  i_desc : match last_opt (texts (str "description") es) with Some t => stripped t (f_desc r) | None => f_desc r = [] end;
  i_time : f_time r = last (filter (Z.ltb 0) (map parse_rfc822 (texts (str "pubDate") es))) 0;
  i_url : match last_opt (enclosed (str "url") es) with
          | Some u => f_url r = Some u
          | None => match filter (fun t : list Z => match t with [] => false | _ => true end) (texts (str "link") es) with
                    | u :: _ => f_url r = Some u
                    | [] => f_url r = None \/ f_url r = Some []
                    end
          end;
  i_size : f_size r = match last_opt (enclosed (str "length") es) with
                      | Some v => atoll v
                      | None => match filter (fun z => negb (z =? 0)) (map atoll (vals (str "size") es)) with z :: _ => z | [] => 0 end
                      end;
  i_imdb : f_imdb r = last (map atoi (vals (str "imdb") es)) 0;
  i_rage : f_rage r = last (map atoi (vals (str "rageid") es)) 0;
  i_tvdb : f_tvdb r = last (map atoi (vals (str "tvdbid") es)) 0;
  i_tvmaze : f_tvmaze r = last (map atoi (vals (str "tvmazeid") es)) 0;
  i_season : f_season r = last_opt (vals (str "season") es);
  i_episode : f_episode r = last_opt (vals (str "episode") es);
  i_seasonnum : forall v n, f_season r = Some v -> 0 <= n < 2 ^ 31 -> number_in v n -> f_seasonnum r = n;
  i_episodenum : forall v n, f_episode r = Some v -> 0 <= n < 2 ^ 31 -> number_in v n -> f_episodenum r = n;
  i_attrs : f_attrs r = attrs es }.

(** A feed: anything but items, then the items, each followed by other things. *)
Record entry := Entry { e_atts : option atts; e_elems : list elem; e_after : list ev }.
Definition entry_evs (x : entry) : list ev := EStart (str "item") (e_atts x) :: flat_map elem_evs (e_elems x) ++ EEnd (str "item") :: e_after x.
Definition entry_ok (x : entry) : Prop := Forall elem_ok (e_elems x) /\ Forall other_ev (e_after x).
Definition no_item (e : ev) : Prop := forall a, e <> EStart (str "item") a.
Definition items_in (l : list ev) : nat := length (filter (fun e => match e with EStart n _ => beqb (str "item") n | _ => false end) l).
