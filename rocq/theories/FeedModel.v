(** Model of feed filters and feed processing: daemon/feed/FeedFilter.cpp,
    daemon/feed/FeedInfo.cpp, daemon/feed/FeedCoordinator.cpp.
    Not modelled: the feed parser, regular expressions and floating point numbers (both
    are functions in [fenv], about which nothing is assumed), threads, the preview cache. *)
From Coq Require Import String.
From Verif Require Import Base NumFmt WildModel InfoModel.
Open Scope string_scope.
Open Scope list_scope.
Open Scope Z_scope.

Definition obind {A B} (o : option A) (f : A -> option B) : option B :=
  match o with Some a => f a | None => None end.

(** ** Reduction of an expression *)

(** [strstr] on the leftmost occurrence: what precedes it and what follows it. *)
Fixpoint find_sub (from s : list Z) : option (list Z * list Z) :=
  if prefixb from s then Some ([], skipn (length from) s)
  else match s with
       | [] => None
       | c :: t => match find_sub from t with Some (a, b) => Some (c :: a, b) | None => None end
       end.

(** daemon/util/Util.cpp:404-420, [ReduceStr]. [None]: fuel exhausted. *)
Fixpoint reduce_str (fuel : nat) (from to s : list Z) : option (list Z) :=
  match fuel with
  | O => None
  | S f => match find_sub from s with
           | None => Some s
           | Some (a, b) => reduce_str f from to (a ++ to ++ b)
           end
  end.

(** daemon/feed/FeedFilter.cpp:842-854. *)
Definition reductions : list (list Z * list Z) :=
  [(str "TT", str "T"); (str "TF", str "F"); (str "FT", str "F"); (str "FF", str "F");
   (str "||", str "|"); (str "(|", str "("); (str "|)", str ")");
   (str "T|T", str "T"); (str "T|F", str "T"); (str "F|T", str "T"); (str "F|F", str "F");
   (str "(T)", str "T"); (str "(F)", str "F")].
Fixpoint reduce_pass (rs : list (list Z * list Z)) (s : list Z) : option (list Z) :=
  match rs with
  | [] => Some s
  | (from, to) :: r => obind (reduce_str (S (length s)) from to s) (reduce_pass r)
  end.
(** daemon/feed/FeedFilter.cpp:837-855, the loop. *)
Fixpoint reduce_expr (fuel : nat) (s : list Z) : option (list Z) :=
  match fuel with
  | O => None
  | S f => obind (reduce_pass reductions s) (fun s1 =>
             if Z.of_nat (length s1) =? Z.of_nat (length s) then Some s1 else reduce_expr f s1)
  end.
(** daemon/feed/FeedFilter.cpp:857. *)
Definition expr_verdict (s : list Z) : option bool :=
  obind (reduce_expr (S (length s)) s) (fun r => Some (beqb r (str "T"))).

(** ** Items *)

(** Fields read by filters, daemon/feed/FeedInfo.h:185-213. Season and episode as
    [GetSeasonNum]/[GetEpisodeNum] leave them. *)
Record fitem := mkItem {
  i_title : list Z; i_filename : list Z; i_url : list Z; i_category : list Z;
  i_description : list Z; i_dupestatus : list Z; i_attrs : list (list Z * list Z);
  i_size : Z; i_time : Z; i_imdb : Z; i_rage : Z; i_tvdb : Z; i_tvmaze : Z;
  i_season : option (list Z); i_seasonnum : Z; i_episode : option (list Z); i_episodenum : Z }.
(** Fields set by filters. *)
Record fopts := mkOpts {
  p_category : list Z; p_pause : bool; p_priority : Z; p_dupekey : list Z;
  p_dupescore : Z; p_dupemode : Z }.

(** What is left open: regular expressions (positions of the groups from 1 on, if the text
    matches), the clock, and floating point: [(int64)atof(s)], [(int64)(atof(s) * mult)] and
    comparison of a text or number with [atof(param)]. *)
Inductive fcmd := fcText | fcRegex | fcEqual | fcLess | fcLessEqual | fcGreater | fcGreaterEqual
  | fcOpeningBrace | fcClosingBrace | fcOrOperator.
Record fenv := mkEnv {
  e_regex : list Z -> list Z -> option (list (Z * Z));
  e_now : Z;
  e_atof : list Z -> Z;
  e_mul : list Z -> Z -> Z;
  e_float : fcmd -> list Z + Z -> list Z -> bool }.

(** daemon/feed/FeedInfo.cpp:42-53. *)
Fixpoint find_attr (l : list (list Z * list Z)) (name : list Z) : option (list Z) :=
  match l with
  | [] => None
  | (n, v) :: r => if same_nocase n name then Some v else find_attr r name
  end.

Definition starts_nocase (p s : list Z) : bool := prefixb (map lower p) (map lower s).

(** daemon/feed/FeedFilter.cpp:281-385, [GetFieldData]: text or number. *)
Definition field_data (e : fenv) (field : option (list Z)) (i : fitem) (o : fopts)
  : option (option (list Z) * Z) :=
  match field with
  | None => Some (Some (i_title i), 0)
  | Some f =>
    let is x := same_nocase f (str x) in
    if is "title" then Some (Some (i_title i), 0)
    else if is "filename" then Some (Some (i_filename i), 0)
    else if is "category" then Some (Some (i_category i), 0)
    else if is "link" || is "url" then Some (Some (i_url i), 0)
    else if is "size" then Some (None, i_size i)
    else if is "age" then Some (None, e_now e - i_time i)
    else if is "imdbid" then Some (None, i_imdb i)
    else if is "rageid" then Some (None, i_rage i)
    else if is "tvdbid" then Some (None, i_tvdb i)
    else if is "tvmazeid" then Some (None, i_tvmaze i)
    else if is "description" then Some (Some (i_description i), 0)
    else if is "season" then Some (None, i_seasonnum i)
    else if is "episode" then Some (None, i_episodenum i)
    else if is "priority" then Some (None, p_priority o)
    else if is "dupekey" then Some (Some (p_dupekey o), 0)
    else if is "dupescore" then Some (None, p_dupescore o)
    else if is "dupestatus" then Some (Some (i_dupestatus i), 0)
    else if starts_nocase (str "attr-") f then Some (find_attr (i_attrs i) (skipn 5 f), 0)
    else None
  end.

(** The same function called with a null item: is the field name known? *)
Definition field_known (field : option (list Z)) : bool :=
  match field with
  | None => true
  | Some f =>
    existsb (fun x => same_nocase f (str x))
      ["title"; "filename"; "category"; "link"; "url"; "size"; "age"; "imdbid"; "rageid"; "tvdbid";
       "tvmazeid"; "description"; "season"; "episode"; "priority"; "dupekey"; "dupescore"; "dupestatus"]
    || starts_nocase (str "attr-") f
  end.

(** ** Terms *)

Record term := mkTerm {
  t_pos : bool; t_field : option (list Z); t_cmd : fcmd; t_param : list Z; t_int : Z; t_float : bool }.

(** daemon/feed/FeedFilter.cpp:93: characters 32-47, 58-64, 91-96, 123-126. *)
Definition word_seps : list Z := str " !""#$%&'()*+,-./:;<=>?@[\]^_`{|}~".

(** daemon/util/NString.cpp:108-127, [CString::Set]: length 0 means the whole string. *)
Definition cstring_set (s : list Z) (len : Z) : list Z :=
  if len =? 0 then s else firstn (Z.to_nat len) s.
(** daemon/feed/FeedFilter.cpp:498-522. *)
Definition ref_values (want : bool) (s : list Z) (off : nat) (g : list (Z * Z)) : list (list Z) :=
  if want then map (fun p => cstring_set (skipn (Z.to_nat (fst p)) s) (snd p)) (skipn off g) else [].

Definition starred (p : list Z) : bool :=
  (2 <=? Z.of_nat (length p)) && (hd 0 p =? 42) && (last p 0 =? 42).
(** daemon/feed/FeedFilter.cpp:95-109. *)
Definition is_substr (param : list Z) : bool :=
  starred param ||
  existsb (fun c => in_set word_seps c && negb (c =? 42) && negb (c =? 63) && negb (c =? 35)) param.
(** daemon/feed/FeedFilter.cpp:113-128, the word search. *)
Fixpoint word_search (want : bool) (param : list Z) (ws : list (list Z)) : option (bool * list (list Z)) :=
  match ws with
  | [] => Some (false, [])
  | w :: r =>
    obind (wild_match want param w) (fun '(b, g) =>
      if b then Some (true, ref_values want w 0 g) else word_search want param r)
  end.
(** daemon/feed/FeedFilter.cpp:132-156, the substring search. *)
Definition substr_mask (param : list Z) : list Z * nat :=
  if starred param then (param, 0%nat)
  else if (1 <=? Z.of_nat (length param)) && (hd 0 param =? 42) then (param ++ [42], 0%nat)
  else if (1 <=? Z.of_nat (length param)) && (last param 0 =? 42) then (42 :: param, 1%nat)
  else (42 :: param ++ [42], 1%nat).
(** daemon/feed/FeedFilter.cpp:91-160, [MatchText]. *)
Definition match_text (want : bool) (param s : list Z) : option (bool * list (list Z)) :=
  if is_substr param then
    let '(mask, off) := substr_mask param in
    obind (wild_match want mask s) (fun '(b, g) => Some (b, if b then ref_values want s off g else []))
  else obind (tokens word_seps s) (word_search want param).

(** daemon/feed/FeedFilter.cpp:162-175, [MatchRegex]. *)
Definition match_regex (e : fenv) (want : bool) (param s : list Z) : bool * list (list Z) :=
  match e_regex e param s with
  | Some g => (true, ref_values want s 0 g)
  | None => (false, [])
  end.

Definition num_cmp (c : fcmd) (a b : Z) : bool :=
  match c with
  | fcEqual => a =? b | fcLess => a <? b | fcLessEqual => a <=? b
  | fcGreater => b <? a | fcGreaterEqual => b <=? a | _ => false
  end.

(** daemon/feed/FeedFilter.cpp:47-89, [MatchValue]. *)
Definition match_value (e : fenv) (want : bool) (t : term) (sv : option (list Z)) (iv : Z)
  : option (bool * list (list Z)) :=
  match t_cmd t with
  | fcText => match_text want (t_param t) (match sv with Some s => s | None => zdec iv end)
  | fcRegex => Some (match_regex e want (t_param t) (match sv with Some s => s | None => zdec iv end))
  | c =>
    let v := match sv with Some s => e_atof e s | None => iv end in
    Some (if t_float t then e_float e c (match sv with Some s => inl s | None => inr iv end) (t_param t)
          else num_cmp c v (t_int t), [])
  end.

(** daemon/feed/FeedFilter.cpp:27-45, [Term::Match]. *)
Definition term_match (e : fenv) (want : bool) (t : term) (i : fitem) (o : fopts)
  : option (bool * list (list Z)) :=
  match field_data e (t_field t) i o with
  | None => Some (false, [])
  | Some (sv, iv) =>
    obind (match_value e want t sv iv) (fun '(b, refs) => Some (Bool.eqb (t_pos t) b, refs))
  end.

(** ** Compiling a term *)

Inductive cres (A : Type) := CUB | CBad | COk (a : A).
Arguments CUB {A}. Arguments CBad {A}. Arguments COk {A}.

Definition is_numch (c : Z) : bool := is_digit c || (c =? 46).
Fixpoint num_prefix (s : list Z) : list Z * list Z :=
  match s with
  | c :: t => if is_numch c then let '(a, b) := num_prefix t in (c :: a, b) else ([], s)
  | [] => ([], [])
  end.
(** [(int64)(atof(s) * mult)]; exact for whole numbers when the product is below 2^53. *)
Definition int_param (e : fenv) (s : list Z) (mult : Z) : Z :=
  if existsb (Z.eqb 46) s || (2 ^ 53 <=? pdigits 0 s * mult) then e_mul e s mult else pdigits 0 s * mult.
(** daemon/feed/FeedFilter.cpp:405-443, [ParseSizeParam]. *)
Definition parse_size (e : fenv) (param : list Z) : option Z :=
  let '(n, p) := num_prefix param in
  let is x := same_nocase p (str x) in
  match p with
  | [] => Some (int_param e n 1)
  | _ => if is "K" || is "KB" then Some (int_param e n 1024)
         else if is "M" || is "MB" then Some (int_param e n (1024 * 1024))
         else if is "G" || is "GB" then Some (int_param e n (1024 * 1024 * 1024))
         else None
  end.
(** daemon/feed/FeedFilter.cpp:445-482, [ParseAgeParam]. *)
Definition parse_age (e : fenv) (param : list Z) : option Z :=
  let '(n, p) := num_prefix param in
  let is x := same_nocase p (str x) in
  match p with
  | [] => Some (int_param e n (60 * 60 * 24))
  | _ => if is "m" then Some (int_param e n 60)
         else if is "h" then Some (int_param e n (60 * 60))
         else if is "d" then Some (int_param e n (60 * 60 * 24))
         else None
  end.
(** daemon/feed/FeedFilter.cpp:484-499, [ParseNumericParam]: [m_intParam] and [m_float]. *)
Definition parse_numeric (e : fenv) (param : list Z) : option (Z * bool) :=
  let dot := existsb (Z.eqb 46) param in
  if forallb (fun c => is_numch c || (c =? 45)) param then
    Some (if dot then e_atof e param else atoll param, dot)
  else None.

(** [strchr(token, ':')]. *)
Fixpoint split_colon (s : list Z) : option (list Z * list Z) :=
  match s with
  | [] => None
  | c :: t => if c =? 58 then Some ([], t)
              else match split_colon t with Some (a, b) => Some (c :: a, b) | None => None end
  end.

(** daemon/feed/FeedFilter.cpp:221-258: the operator in front of the parameter. *)
Definition term_cmd (tok : list Z) : fcmd * list Z :=
  let ch := hd 0 tok in let ch2 := hd 0 (tl tok) in
  if ch =? 64 then (fcText, tl tok)
  else if ch =? 36 then (fcRegex, tl tok)
  else if ch =? 61 then (fcEqual, tl tok)
  else if (ch =? 60) && (ch2 =? 61) then (fcLessEqual, tl (tl tok))
  else if (ch =? 62) && (ch2 =? 61) then (fcGreaterEqual, tl (tl tok))
  else if ch =? 60 then (fcLess, tl tok)
  else if ch =? 62 then (fcGreater, tl tok)
  else (fcText, tok).
Definition numeric (c : fcmd) : bool :=
  match c with fcText | fcRegex => false | _ => true end.

(** daemon/feed/FeedFilter.cpp:387-403, [ParseParam]. *)
Definition parse_param (e : fenv) (field : list Z) (c : fcmd) (param : list Z) : option (Z * bool) :=
  if same_nocase field (str "size") then
    match parse_size e param with Some n => Some (n, false) | None => None end
  else if same_nocase field (str "age") then
    match parse_age e param with Some n => Some (n, false) | None => None end
  else if numeric c then parse_numeric e param
  else Some (0, false).

(** daemon/feed/FeedFilter.cpp:177-274, [Term::Compile]. [room]: bytes of the buffer behind
    the NUL of the token; [CUB] when [token[1]] lies outside. *)
Definition compile_term (e : fenv) (room : Z) (token : list Z) : cres term :=
  let pos := negb (hd 0 token =? 45) in
  let tok := if (hd 0 token =? 45) || (hd 0 token =? 43) then tl token else token in
  match tok with
  | [] => if room <=? 0 then CUB else CBad
  | ch :: rest =>
    let brace := match rest with [] => true | c :: _ => c =? 32 end in
    if brace && (ch =? 40) then COk (mkTerm pos None fcOpeningBrace [] 0 false)
    else if brace && (ch =? 41) then COk (mkTerm pos None fcClosingBrace [] 0 false)
    else if brace && (ch =? 124) then COk (mkTerm pos None fcOrOperator [] 0 false)
    else
      let op := (ch =? 64) || (ch =? 36) || (ch =? 60) || (ch =? 62) || (ch =? 61) in
      let '(field, tok1) :=
        match (if op then None else split_colon tok) with
        | Some (f, p) => (Some f, p)
        | None => (None, tok)
        end in
      match tok1 with
      | [] => CBad
      | _ =>
        let '(c, param) := term_cmd tok1 in
        if negb (field_known field) then CBad
        else match field with
             | None => COk (mkTerm pos None c param 0 false)
             | Some f => match parse_param e f c param with
                         | Some (n, fl) => COk (mkTerm pos field c param n fl)
                         | None => CBad
                         end
             end
      end
  end.

(** ** Rules *)

Inductive rcmd := frAccept | frReject | frRequire | frOptions | frComment.
(** Options of a rule; [None]: not given. The flags tell that the text has references. *)
Record ropts := mkROpts {
  r_cat : option (list Z); r_catpat : bool; r_pause : option bool;
  r_prio : option Z; r_addprio : option Z; r_score : option Z; r_addscore : option Z;
  r_key : option (list Z); r_keypat : bool; r_addkey : option (list Z); r_addkeypat : bool;
  r_mode : option Z;
  r_rage : option (list Z); r_tvdb : option (list Z); r_tvmaze : option (list Z); r_series : option (list Z) }.
Definition no_opts : ropts :=
  mkROpts None false None None None None None None false None false None None None None None.
Record rule := mkRule { u_cmd : rcmd; u_opts : ropts; u_terms : list term }.

Definition has_ref (v : list Z) : bool := match find_sub (str "${") v with Some _ => true | None => false end.
(** [strchr("0123456789-+", *value)], also true for the empty text. *)
Definition num_start (v : list Z) : bool :=
  match v with [] => true | c :: _ => is_digit c || (c =? 45) || (c =? 43) end.

(** daemon/feed/FeedFilter.cpp:637-757: one option; [None]: error. *)
Definition compile_option (r : ropts) (token : list Z) : option ropts :=
  let '(option, value) := match split_colon token with
                          | Some (a, b) => (a, trim b) | None => (token, []) end in
  let is x := same_nocase option (str x) in
  let isv x := same_nocase value (str x) in
  let '(mkROpts cat catpat pause prio aprio sc asc key keypat akey akeypat mode rage tvdb tvmaze series) := r in
  if is "category" || is "cat" || is "c" then
    Some (mkROpts (Some value) (has_ref value) pause prio aprio sc asc key keypat akey akeypat mode rage tvdb tvmaze series)
  else if is "pause" || is "p" then
    let p := match value with [] => true | _ => isv "yes" || isv "y" end in
    if negb p && negb (isv "no" || isv "n") then None
    else Some (mkROpts cat catpat (Some p) prio aprio sc asc key keypat akey akeypat mode rage tvdb tvmaze series)
  else if is "priority" || is "pr" || is "r" then
    if num_start value then
      Some (mkROpts cat catpat pause (Some (atoll value)) aprio sc asc key keypat akey akeypat mode rage tvdb tvmaze series)
    else None
  else if is "priority+" || is "pr+" || is "r+" then
    if num_start value then
      Some (mkROpts cat catpat pause prio (Some (atoll value)) sc asc key keypat akey akeypat mode rage tvdb tvmaze series)
    else None
  else if is "dupescore" || is "ds" || is "s" then
    if num_start value then
      Some (mkROpts cat catpat pause prio aprio (Some (atoll value)) asc key keypat akey akeypat mode rage tvdb tvmaze series)
    else None
  else if is "dupescore+" || is "ds+" || is "s+" then
    if num_start value then
      Some (mkROpts cat catpat pause prio aprio sc (Some (atoll value)) key keypat akey akeypat mode rage tvdb tvmaze series)
    else None
  else if is "dupekey" || is "dk" || is "k" then
    Some (mkROpts cat catpat pause prio aprio sc asc (Some value) (has_ref value) akey akeypat mode rage tvdb tvmaze series)
  else if is "dupekey+" || is "dk+" || is "k+" then
    Some (mkROpts cat catpat pause prio aprio sc asc key keypat (Some value) (has_ref value) mode rage tvdb tvmaze series)
  else if is "dupemode" || is "dm" || is "m" then
    let set m := Some (mkROpts cat catpat pause prio aprio sc asc key keypat akey akeypat (Some m) rage tvdb tvmaze series) in
    if isv "score" || isv "s" then set 0
    else if isv "all" || isv "a" then set 1
    else if isv "force" || isv "f" then set 2
    else None
  else if is "rageid" then
    Some (mkROpts cat catpat pause prio aprio sc asc key keypat akey akeypat mode (Some value) tvdb tvmaze series)
  else if is "tvdbid" then
    Some (mkROpts cat catpat pause prio aprio sc asc key keypat akey akeypat mode rage (Some value) tvmaze series)
  else if is "tvmazeid" then
    Some (mkROpts cat catpat pause prio aprio sc asc key keypat akey akeypat mode rage tvdb (Some value) series)
  else if is "series" then
    Some (mkROpts cat catpat pause prio aprio sc asc key keypat akey akeypat mode rage tvdb tvmaze (Some value))
  else if is "paused" || is "unpaused" then
    Some (mkROpts cat catpat (Some (is "paused")) prio aprio sc asc key keypat akey akeypat mode rage tvdb tvmaze series)
  else if num_start option then
    Some (mkROpts cat catpat pause (Some (atoll option)) aprio sc asc key keypat akey akeypat mode rage tvdb tvmaze series)
  else
    Some (mkROpts (Some option) catpat pause prio aprio sc asc key keypat akey akeypat mode rage tvdb tvmaze series).
Fixpoint compile_option_list (r : ropts) (l : list (list Z)) : option ropts :=
  match l with
  | [] => Some r
  | t :: rest => obind (compile_option r t) (fun r1 => compile_option_list r1 rest)
  end.

Fixpoint split_paren (s : list Z) : option (list Z * list Z) :=
  match s with
  | [] => None
  | c :: t => if c =? 41 then Some ([], t)
              else match split_paren t with Some (a, b) => Some (c :: a, b) | None => None end
  end.
(** daemon/feed/FeedFilter.cpp:620-766, [CompileOptions]: options and the rest of the rule. *)
Definition compile_options (s : list Z) : option (ropts * list Z) :=
  obind (split_paren s) (fun '(inner, rest) =>
  obind (tokens [44] inner) (fun l =>
  obind (compile_option_list no_opts l) (fun r =>
    Some (r, match rest with c :: t => if c =? 58 then t else rest | [] => [] end)))).

(** daemon/feed/FeedFilter.cpp:571-618, [CompileCommand]; [None]: error. *)
Definition compile_command (s : list Z) : option (rcmd * ropts * list Z) :=
  let st x := starts_nocase (str x) s in
  let short := let c := hd 0 (tl s) in (c =? 58) || (c =? 40) in
  let opts cmd rest last := if last =? 40 then obind (compile_options rest) (fun '(r, t) => Some (cmd, r, t))
                            else Some (cmd, no_opts, rest) in
  if st "A:" || st "Accept:" || st "A(" || st "Accept(" then
    let n := if short then 2%nat else 7%nat in opts frAccept (skipn n s) (nth (n - 1) s 0)
  else if st "O(" || st "Options(" then
    let n := if short then 2%nat else 8%nat in opts frOptions (skipn n s) (nth (n - 1) s 0)
  else if st "R:" || st "Reject:" then
    Some (frReject, no_opts, skipn (if short then 2%nat else 7%nat) s)
  else if st "Q:" || st "Require:" then
    Some (frRequire, no_opts, skipn (if short then 2%nat else 8%nat) s)
  else if hd 0 s =? 35 then Some (frComment, no_opts, s)
  else Some (frAccept, no_opts, s).

(** daemon/feed/FeedFilter.cpp:543-555: terms are separated by runs of blanks. *)
Fixpoint split_blank (s : list Z) : list (list Z) :=
  match s with
  | [] => [[]]
  | c :: t => if c =? 32 then [] :: split_blank t
              else match split_blank t with f :: l => (c :: f) :: l | [] => [[c]] end
  end.
Definition term_texts (s : list Z) : list (list Z) :=
  match filter (fun t => match t with [] => false | _ => true end) (split_blank s) with
  | [] => [[]]
  | l => l
  end.
(** Terms compiled until the first bad one. Behind a term that is not the last one the
    buffer goes on. *)
Fixpoint compile_terms (e : fenv) (room : Z) (l : list (list Z)) : cres (list term) :=
  match l with
  | [] => COk []
  | t :: r =>
    match compile_term e (match r with [] => room | _ => 1 end) t with
    | CUB => CUB
    | CBad => CBad
    | COk x => match compile_terms e room r with COk l' => COk (x :: l') | CUB => CUB | CBad => CBad end
    end
  end.

(** Number of blanks removed at the end by [Trim]. *)
Definition trailing (s : list Z) : Z := Z.of_nat (length s) - Z.of_nat (length (drop_blank (rev s))).

(** daemon/feed/FeedFilter.cpp:524-570, [Rule::Compile]. [CBad]: the rule is not valid. *)
Definition compile_rule (e : fenv) (room : Z) (s : list Z) : cres rule :=
  let room1 := room + trailing s in
  match compile_command (trim s) with
  | None => CBad
  | Some (c, r, rest) =>
    match c with
    | frComment => COk (mkRule c r [])
    | _ => match compile_terms e room1 (term_texts (trim rest)) with
           | COk l => COk (mkRule c r l)
           | CUB => CUB
           | CBad => CBad
           end
    end
  end.

(** daemon/feed/FeedFilter.cpp:935-957, [FeedFilter::Compile]: rules are separated by '%'. *)
Fixpoint split_rules (s : list Z) : list (list Z) :=
  match s with
  | [] => [[]]
  | c :: t => if c =? 37 then [] :: split_rules t
              else match split_rules t with f :: l => (c :: f) :: l | [] => [[c]] end
  end.
Fixpoint compile_rules (e : fenv) (l : list (list Z)) : option (list (option rule)) :=
  match l with
  | [] => Some []
  | t :: r =>
    match compile_rule e (match r with [] => 0 | _ => 1 end) t with
    | CUB => None
    | CBad => obind (compile_rules e r) (fun l' => Some (None :: l'))
    | COk u => obind (compile_rules e r) (fun l' => Some (Some u :: l'))
    end
  end.
(** [None]: a read outside the buffer; invalid rules are [None] inside the list. *)
Definition compile_filter (e : fenv) (s : list Z) : option (list (option rule)) :=
  compile_rules e (split_rules s).

(** ** Matching a rule *)

Definition wants_refs (r : ropts) : bool := r_catpat r || r_keypat r || r_addkeypat r.

(** daemon/feed/FeedFilter.cpp:806-835: the expression text and the references in order. *)
Fixpoint expr_text (e : fenv) (want : bool) (l : list term) (i : fitem) (o : fopts)
  : option (list Z * list (list Z)) :=
  match l with
  | [] => Some ([], [])
  | t :: r =>
    obind (match t_cmd t with
           | fcOpeningBrace => Some (40, [])
           | fcClosingBrace => Some (41, [])
           | fcOrOperator => Some (124, [])
           | _ => obind (term_match e want t i o) (fun '(b, refs) => Some (if b then 84 else 70, refs))
           end) (fun '(c, refs) =>
    obind (expr_text e want r i o) (fun '(s, refs') => Some (c :: s, refs ++ refs')))
  end.

(** daemon/util/NString.cpp:32-39, [BString<100>::Set]. *)
Definition bstring_set (s : list Z) (len : Z) : list Z :=
  firstn (Z.to_nat (if 0 <? len then Z.min 99 len else 99)) s.
(** daemon/feed/FeedFilter.cpp:896-917, [GetRefValue]. *)
Definition ref_value (i : fitem) (refs : list (list Z)) (var : list Z) : option (list Z) :=
  if same_nocase var (str "season") then Some (match i_season i with Some s => s | None => [] end)
  else if same_nocase var (str "episode") then Some (match i_episode i with Some s => s | None => [] end)
  else let n := atoll var - 1 in
       if (0 <=? n) && (n <? Z.of_nat (length refs)) then nth_error refs (Z.to_nat n) else None.
Fixpoint split_brace (s : list Z) : option (list Z * list Z) :=
  match s with
  | [] => None
  | c :: t => if c =? 125 then Some ([], t)
              else match split_brace t with Some (a, b) => Some (c :: a, b) | None => None end
  end.
(** daemon/feed/FeedFilter.cpp:861-894, [ExpandRefValues]; at most [n] = 100 replacements. *)
Fixpoint expand_refs (n : nat) (i : fitem) (refs : list (list Z)) (cur : list Z) : list Z :=
  match n with
  | O => cur
  | S m =>
    match find_sub (str "${") cur with
    | None => cur
    | Some (a, b) =>
      match split_brace b with
      | None => cur
      | Some (var, rest) =>
        match ref_value i refs (bstring_set b (Z.of_nat (length var))) with
        | None => cur
        | Some v => expand_refs m i refs (a ++ v ++ rest)
        end
      end
    end
  end.
Definition expand_opt (pat : bool) (i : fitem) (refs : list (list Z)) (v : option (list Z)) : option (list Z) :=
  match v with
  | Some s => Some (if pat then expand_refs 100 i refs s else s)
  | None => None
  end.

(** daemon/feed/FeedFilter.cpp:780-804, [Rule::Match]: the verdict and the options with
    references expanded. *)
Definition rule_match (e : fenv) (u : rule) (i : fitem) (o : fopts) : option (bool * ropts) :=
  let r := u_opts u in
  obind (expr_text e (wants_refs r) (u_terms u) i o) (fun '(s, refs) =>
  obind (expr_verdict s) (fun b =>
    Some (b, if b then
               mkROpts (expand_opt (r_catpat r) i refs (r_cat r)) (r_catpat r) (r_pause r) (r_prio r) (r_addprio r)
                 (r_score r) (r_addscore r) (expand_opt (r_keypat r) i refs (r_key r)) (r_keypat r)
                 (expand_opt (r_addkeypat r) i refs (r_addkey r)) (r_addkeypat r) (r_mode r)
                 (r_rage r) (r_tvdb r) (r_tvmaze r) (r_series r)
             else r))).

(** ** Applying options *)

Definition otext (o : option (list Z)) : list Z := match o with Some s => s | None => [] end.
Definition nonempty (s : list Z) : bool := match s with [] => false | _ => true end.
(** daemon/feed/FeedInfo.cpp:88-117, [BuildDupeKey]. *)
Definition build_dupekey (i : fitem) (rage tvdb tvmaze series : option (list Z)) : list Z :=
  let id v own := if nonempty (otext v) then atoll (otext v) else own in
  let tail := str "-" ++ otext (i_season i) ++ str "-" ++ otext (i_episode i) in
  let numbered := negb (i_seasonnum i =? 0) && negb (i_episodenum i =? 0) in
  if negb (i_imdb i =? 0) then str "imdb=" ++ zdec (i_imdb i)
  else if nonempty (otext series) && numbered then str "series=" ++ otext series ++ tail
  else if negb (id rage (i_rage i) =? 0) && numbered then str "rageid=" ++ zdec (id rage (i_rage i)) ++ tail
  else if negb (id tvdb (i_tvdb i) =? 0) && numbered then str "tvdbid=" ++ zdec (id tvdb (i_tvdb i)) ++ tail
  else if negb (id tvmaze (i_tvmaze i) =? 0) && numbered then str "tvmazeid=" ++ zdec (id tvmaze (i_tvmaze i)) ++ tail
  else [].
(** daemon/feed/FeedInfo.cpp:80-86, [AppendDupeKey]. *)
Definition append_dupekey (key extra : list Z) : list Z :=
  if nonempty key && nonempty extra then key ++ str "-" ++ extra else key.

Definition default {A} (d : A) (o : option A) : A := match o with Some x => x | None => d end.
(** daemon/feed/FeedFilter.cpp:1014-1058, [ApplyOptions]. *)
Definition apply_options (r : ropts) (i : fitem) (o : fopts) : fopts :=
  let prio := default (p_priority o) (r_prio r) + default 0 (r_addprio r) in
  let score := default (p_dupescore o) (r_score r) + default 0 (r_addscore r) in
  let given := match r_rage r, r_tvdb r, r_tvmaze r, r_series r with None, None, None, None => false | _, _, _, _ => true end in
  let key1 := if given then build_dupekey i (r_rage r) (r_tvdb r) (r_tvmaze r) (r_series r) else p_dupekey o in
  let key2 := default key1 (r_key r) in
  let key3 := match r_addkey r with Some x => append_dupekey key2 x | None => key2 end in
  mkOpts (default (p_category o) (r_cat r)) (default (p_pause o) (r_pause r)) prio key3 score
    (default (p_dupemode o) (r_mode r)).

(** ** The filter *)

Inductive mstatus := msIgnored | msAccepted | msRejected.
(** Match status, number of the deciding rule, options of the item. *)
Record fresult := mkRes { m_status : mstatus; m_rule : Z; m_opts : fopts }.

(** daemon/feed/FeedFilter.cpp:963-1012, [FeedFilter::Match]; [index] rules are done.
    The status an Options rule sets is overwritten before the function returns. *)
Fixpoint filter_match (e : fenv) (l : list (option rule)) (index : Z) (i : fitem) (o : fopts) : option fresult :=
  match l with
  | [] => Some (mkRes msIgnored 0 o)
  | None :: r => filter_match e r (index + 1) i o
  | Some u :: r =>
    obind (rule_match e u i o) (fun '(b, opts) =>
      match u_cmd u with
      | frAccept => if b then Some (mkRes msAccepted (index + 1) (apply_options opts i o))
                    else filter_match e r (index + 1) i o
      | frOptions => filter_match e r (index + 1) i (if b then apply_options opts i o else o)
      | frReject => if b then Some (mkRes msRejected (index + 1) o) else filter_match e r (index + 1) i o
      | frRequire => if b then filter_match e r (index + 1) i o else Some (mkRes msRejected (index + 1) o)
      | frComment => filter_match e r (index + 1) i o
      end)
  end.

(** daemon/feed/FeedCoordinator.cpp:338-370, [FilterFeed] for one item. [category], [pause],
    [priority]: settings of the feed. *)
Definition filter_item (e : fenv) (filter category : list Z) (pause : bool) (priority : Z) (i : fitem)
  : option fresult :=
  let o := mkOpts category pause priority (build_dupekey i None None None None) 0 0 in
  match filter with
  | [] => Some (mkRes msAccepted 0 o)
  | _ => obind (compile_filter e filter) (fun l => filter_match e l 0 i o)
  end.

(** ** Feed history *)

Inductive hstatus := hsUnknown | hsBacklog | hsFetched.
Record hentry := mkHist { h_url : list Z; h_status : hstatus; h_seen : Z }.

(** daemon/feed/FeedInfo.cpp:185-196, [FeedHistory::Find]. *)
Fixpoint hist_find (l : list hentry) (url : list Z) : bool :=
  match l with [] => false | h :: r => if beqb (h_url h) url then true else hist_find r url end.
(** [SetLastSeen]/[SetStatus] on the entry found. *)
Fixpoint hist_update (f : hentry -> hentry) (l : list hentry) (url : list Z) : list hentry :=
  match l with
  | [] => []
  | h :: r => if beqb (h_url h) url then f h :: r else h :: hist_update f r url
  end.
Definition set_seen (now : Z) (h : hentry) : hentry := mkHist (h_url h) (h_status h) now.
Definition set_fetched (h : hentry) : hentry := mkHist (h_url h) hsFetched (h_seen h).

(** daemon/feed/FeedCoordinator.cpp:372-423, [ProcessFeed] on the urls of the accepted items:
    new history and the urls added to the queue. *)
Fixpoint process_urls (now : Z) (backlog : bool) (urls : list (list Z)) (hist : list hentry)
  : list hentry * list (list Z) :=
  match urls with
  | [] => (hist, [])
  | u :: r =>
    let known := hist_find hist u in
    let add := negb backlog && negb known in
    let status := if backlog then hsBacklog else if known then hsUnknown else hsFetched in
    let hist1 := if known then hist_update (set_seen now) hist u else hist ++ [mkHist u status now] in
    let '(hist2, added) := process_urls now backlog r hist1 in
    (hist2, (if add then [u] else []) ++ added)
  end.

(** Settings and state of a feed, daemon/feed/FeedInfo.h. *)
Record feed := mkFeed { f_backlog : bool; f_interval : Z; f_last : Z; f_next : Z; f_lastint : Z }.

(** daemon/feed/FeedCoordinator.cpp:375, 285-294: one successful fetch of feed [f]; [now] is the
    clock while processing, [fin] the clock afterwards. *)
Definition process_feed (now fin : Z) (f : feed) (urls : list (list Z)) (hist : list hentry)
  : feed * list hentry * list (list Z) :=
  let first := f_last f =? 0 in
  let '(hist1, added) := process_urls now (first && f_backlog f) urls hist in
  (mkFeed (f_backlog f) (f_interval f) fin (f_next f) (f_lastint f), hist1, added).

(** daemon/feed/FeedCoordinator.cpp:644-664, [DownloadQueueUpdate]. *)
Definition url_completed (now : Z) (url : list Z) (hist : list hentry) : list hentry :=
  if hist_find hist url then hist_update set_fetched hist url else hist ++ [mkHist url hsFetched now].

(** daemon/feed/FeedCoordinator.cpp:679-704, [CleanupHistory]. *)
Definition oldest_update (now : Z) (feeds : list feed) : Z :=
  fold_left (fun m f => if f_last f <? m then f_last f else m) feeds now.
Definition cleanup_history (now days : Z) (feeds : list feed) (hist : list hentry) : list hentry :=
  let border := oldest_update now feeds - days * 60 * 60 * 24 in
  filter (fun h => negb (h_seen h <? border)) hist.

(** daemon/feed/FeedCoordinator.cpp:313-336, [SchedulerNextUpdate]. *)
Definition next_update (now : Z) (success : bool) (f : feed) : feed :=
  if success then mkFeed (f_backlog f) (f_interval f) (f_last f) (now + f_interval f * 60) 0
  else let i := Z.min (Z.max (f_lastint f * 2) 60) (f_interval f * 60) in
       mkFeed (f_backlog f) (f_interval f) (f_last f) (now + i) i.

(** daemon/feed/FeedCoordinator.cpp:116-122: is the feed due? *)
Definition feed_due (now : Z) (f : feed) : bool :=
  (0 <? f_interval f) &&
  ((f_next f =? 0) || (f_next f <=? now) || (now <? f_next f - f_interval f * 60)).
