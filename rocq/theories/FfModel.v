(** Model of the reading of RSS-feeds: daemon/feed/FeedFile.cpp (the branch with libxml2, 46-76 and 361-570) and the parts of FeedItemInfo it sets
    (daemon/feed/FeedInfo.cpp:57-78). The input is the sequence of calls the XML parser makes, as for nzb-files. Not modelled: the XML parser, messages,
    the season and episode found in the title (they need a regular expression).
    [None]: the behaviour is undefined (null pointers, memory behind a text). *)
From Coq Require Import String.
From Verif Require Import Base NumFmt WildModel CodecModel WebModel NzbModel Rfc822Model.
Open Scope list_scope. Open Scope Z_scope.

(** FeedInfo.h:195-211, what is read from the feed. *)
Record fi := FI {
  f_title : option (list Z); f_file : option (list Z); f_url : option (list Z); f_time : Z; f_size : Z; f_cat : list Z;
  f_imdb : Z; f_rage : Z; f_tvdb : Z; f_tvmaze : Z; f_desc : list Z;
  f_season : option (list Z); f_episode : option (list Z); f_seasonnum : Z; f_episodenum : Z; f_attrs : list (list Z * list Z) }.
Definition fi0 : fi := FI None None None 0 0 [] 0 0 0 0 [] None None 0 0 [].
Definition set_title (t f : list Z) (i : fi) : fi :=
  FI (Some t) (Some f) (f_url i) (f_time i) (f_size i) (f_cat i) (f_imdb i) (f_rage i) (f_tvdb i) (f_tvmaze i) (f_desc i) (f_season i) (f_episode i) (f_seasonnum i) (f_episodenum i) (f_attrs i).
Definition set_url (u : list Z) (i : fi) : fi :=
  FI (f_title i) (f_file i) (Some u) (f_time i) (f_size i) (f_cat i) (f_imdb i) (f_rage i) (f_tvdb i) (f_tvmaze i) (f_desc i) (f_season i) (f_episode i) (f_seasonnum i) (f_episodenum i) (f_attrs i).
Definition set_time (t : Z) (i : fi) : fi :=
  FI (f_title i) (f_file i) (f_url i) t (f_size i) (f_cat i) (f_imdb i) (f_rage i) (f_tvdb i) (f_tvmaze i) (f_desc i) (f_season i) (f_episode i) (f_seasonnum i) (f_episodenum i) (f_attrs i).
Definition set_size (s : Z) (i : fi) : fi :=
  FI (f_title i) (f_file i) (f_url i) (f_time i) s (f_cat i) (f_imdb i) (f_rage i) (f_tvdb i) (f_tvmaze i) (f_desc i) (f_season i) (f_episode i) (f_seasonnum i) (f_episodenum i) (f_attrs i).
Definition set_cat (c : list Z) (i : fi) : fi :=
  FI (f_title i) (f_file i) (f_url i) (f_time i) (f_size i) c (f_imdb i) (f_rage i) (f_tvdb i) (f_tvmaze i) (f_desc i) (f_season i) (f_episode i) (f_seasonnum i) (f_episodenum i) (f_attrs i).
Definition set_desc (d : list Z) (i : fi) : fi :=
  FI (f_title i) (f_file i) (f_url i) (f_time i) (f_size i) (f_cat i) (f_imdb i) (f_rage i) (f_tvdb i) (f_tvmaze i) d (f_season i) (f_episode i) (f_seasonnum i) (f_episodenum i) (f_attrs i).
Definition set_ids (a b c d : Z) (i : fi) : fi :=
  FI (f_title i) (f_file i) (f_url i) (f_time i) (f_size i) (f_cat i) a b c d (f_desc i) (f_season i) (f_episode i) (f_seasonnum i) (f_episodenum i) (f_attrs i).
Definition add_attr (n v : list Z) (i : fi) : fi :=
  FI (f_title i) (f_file i) (f_url i) (f_time i) (f_size i) (f_cat i) (f_imdb i) (f_rage i) (f_tvdb i) (f_tvmaze i) (f_desc i) (f_season i) (f_episode i) (f_seasonnum i) (f_episodenum i)
     (f_attrs i ++ [(n, v)]).

(** FeedInfo.cpp:69-77, [ParsePrefixedInt]; the terminating zero is found in the list of digits, too. *)
Definition prefixed_int (v : list Z) : Z := match v with c :: r => if is_digit c then atoi v else atoi r | [] => atoi [] end.
(** FeedInfo.cpp:57-67. *)
Definition set_season (v : list Z) (i : fi) : fi :=
  FI (f_title i) (f_file i) (f_url i) (f_time i) (f_size i) (f_cat i) (f_imdb i) (f_rage i) (f_tvdb i) (f_tvmaze i) (f_desc i) (Some v) (f_episode i) (prefixed_int v) (f_episodenum i) (f_attrs i).
Definition set_episode (v : list Z) (i : fi) : fi :=
  FI (f_title i) (f_file i) (f_url i) (f_time i) (f_size i) (f_cat i) (f_imdb i) (f_rage i) (f_tvdb i) (f_tvmaze i) (f_desc i) (f_season i) (Some v) (f_seasonnum i) (prefixed_int v) (f_attrs i).

(** strrchr *)
Fixpoint last_index (c : Z) (s : list Z) : option nat :=
  match s with
  | [] => None
  | x :: r => match last_index c r with Some k => Some (S k) | None => if x =? c then Some O else None end
  end.
Definition without_par2 (name : list Z) : list Z :=
  match last_index 46 name with Some k => if nocase_eq (skipn k name) (str ".par2") then firstn k name else name | None => name end.
(** FeedFile.cpp:46-76, [ParseSubject]: the file name. The search for the closing quote starts one byte behind the byte after the opening quote, which may be the terminating zero. *)
Definition parse_subject (t : list Z) : option (list Z) :=
  match WebModel.index 34 t with
  | None => Some t
  | Some i =>
    match skipn (S i) t with
    | [] => None
    | c :: s =>
      match WebModel.index 34 s, WebModel.index 46 s with
      | Some j, Some k => if (k <? j)%nat then Some (without_par2 (firstn (S j) (c :: s))) else Some t
      | _, _ => Some t
      end
    end
  end.

(** Util.cpp:958-970, [XmlStripTags]. *)
Fixpoint strip_go (fuel : nat) (s : list Z) : list Z :=
  match fuel with
  | O => s
  | S n =>
    match WebModel.index 60 s with
    | None => s
    | Some i => match WebModel.index 62 (skipn i s) with
                | None => s
                | Some j => firstn i s ++ repeat 32 (S j) ++ strip_go n (skipn (S j) (skipn i s))
                end
    end
  end.
Definition strip_tags (s : list Z) : list Z := strip_go (S (length s)) s.

(** FeedFile.h:45-47: the items done, the item m_feedItemInfo points to, which is the last one, and m_tagContent, which may be a null pointer. *)
Record fst_ := FS { s_done : list fi; s_cur : option fi; s_text : option (list Z) }.
Definition fs0 : fst_ := FS [] None None.
Definition items (s : fst_) : list fi := s_done s ++ match s_cur s with Some i => [i] | None => [] end.
Definition content (s : fst_) : list Z := match s_text s with Some t => t | None => [] end.

(** FeedFile.cpp:397-414. *)
Fixpoint enclosure (atts : list (list Z * list Z)) (i : fi) : option fi :=
  match atts with
  | [] => Some i
  | (n, v) :: r =>
    if beqb (str "url") n then match xml_decode v with Some u => enclosure r (set_url u i) | None => None end
    else if beqb (str "length") n then enclosure r (set_size (atoll v) i)
    else enclosure r i
  end.
(** FeedFile.cpp:420-466. *)
Definition attribute (n v : list Z) (i : fi) : fi :=
  let i := add_attr n v i in
  if (f_size i =? 0) && beqb (str "size") n then set_size (atoll v) i
  else if beqb (str "imdb") n then set_ids (atoi v) (f_rage i) (f_tvdb i) (f_tvmaze i) i
  else if beqb (str "rageid") n then set_ids (f_imdb i) (atoi v) (f_tvdb i) (f_tvmaze i) i
  else if beqb (str "tvdbid") n then set_ids (f_imdb i) (f_rage i) (atoi v) (f_tvmaze i) i
  else if beqb (str "tvmazeid") n then set_ids (f_imdb i) (f_rage i) (f_tvdb i) (atoi v) i
  else if beqb (str "episode") n then set_episode v i
  else if beqb (str "season") n then set_season v i
  else i.
(** FeedFile.cpp:388-468, [Parse_StartElement]. The parser passes a null pointer for an element without attributes. *)
Definition ff_start (name : list Z) (atts : option (list (list Z * list Z))) (s : fst_) : option fst_ :=
  if beqb (str "item") name then Some (FS (items s) (Some fi0) None)
  else match s_cur s with
  | None => Some (FS (s_done s) None None)
  | Some i =>
    if beqb (str "enclosure") name then
      match atts with
      | None => None
      | Some l => match enclosure l i with Some j => Some (FS (s_done s) (Some j) None) | None => None end
      end
    else if beqb (str "newznab:attr") name || beqb (str "nZEDb:attr") name then
      match atts with
      | None => None
      | Some ((n1, v1) :: (n2, v2) :: _) =>
        if beqb (str "name") n1 && beqb (str "value") n2 then Some (FS (s_done s) (Some (attribute v1 v2 i)) None) else Some (FS (s_done s) (Some i) None)
      | Some _ => Some (FS (s_done s) (Some i) None)
      end
    else Some (FS (s_done s) (Some i) None)
  end.
(** FeedFile.cpp:491-496; the text is a null pointer if there was none. *)
Definition description (t : option (list Z)) : option (list Z) :=
  match t with
  | None => None
  | Some d => match xml_decode (strip_tags d) with Some x => remove_entities x | None => None end
  end.
(** FeedFile.cpp:470-508, [Parse_EndElement]. *)
Definition ff_end (name : list Z) (s : fst_) : option fst_ :=
  match s_cur s with
  | None => Some s
  | Some i =>
    if beqb (str "title") name then match parse_subject (content s) with Some f => Some (FS (s_done s) (Some (set_title (content s) f i)) None) | None => None end
    else if beqb (str "link") name then
      match f_url i with
      | Some (_ :: _) => Some s
      | _ => Some (FS (s_done s) (Some (set_url (content s) i)) None)
      end
    else if beqb (str "category") name then Some (FS (s_done s) (Some (set_cat (content s) i)) None)
    else if beqb (str "description") name then
      match description (s_text s) with Some d => Some (FS (s_done s) (Some (set_desc d i)) None) | None => None end
    else if beqb (str "pubDate") name then
      let t := parse_rfc822 (content s) in Some (FS (s_done s) (Some (if 0 <? t then set_time t i else i)) None)
    else Some s
  end.
(** FeedFile.cpp:510-513 and 530-570, [SAX_characters], [Parse_Content]. *)
Definition ff_text (t : list Z) (s : fst_) : fst_ :=
  match WildModel.trim t with [] => s | u => FS (s_done s) (s_cur s) (Some (content s ++ u)) end.
Definition ff_step (s : fst_) (e : ev) : option fst_ :=
  match e with EStart n a => ff_start n a s | EEnd n => ff_end n s | EText t => Some (ff_text t s) end.
Fixpoint ff_run (s : fst_) (l : list ev) : option fst_ :=
  match l with [] => Some s | e :: r => match ff_step s e with Some s' => ff_run s' r | None => None end end.
(** FeedFile.cpp:361-386, [Parse], for a file the parser accepts. *)
Definition parse_feed (l : list ev) : option (list fi) := match ff_run fs0 l with Some s => Some (items s) | None => None end.
