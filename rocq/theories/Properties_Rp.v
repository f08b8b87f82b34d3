(** C172, C173: parameters of remote procedures. *)
From Coq Require Import String.
From Verif Require Import Base NumFmt WildModel CodecModel CodecSpec CodecProofs2 WebModel InfoModel RpModel RpSpec RpProofs RpProofs2.
Open Scope list_scope. Open Scope Z_scope.

(** ** C172: parameters arrive as written, in JSON, XML and addresses *)
Theorem C172_append : forall f req t name mname content mcontent data cat mcat prio top paused key mkey score mode md l,
  params_text f req t ->
  written f true (VStr name :: VStr content :: VStr cat :: VInt prio :: VBool top :: VBool paused :: VStr key :: VInt score :: VStr mode :: pair_values l) t ->
  means f name mname -> means f content mcontent -> means f cat mcat -> means f key mkey -> content_means mcontent data -> like mode (mode_name md) ->
  Forall (fun p : list Z * list Z => snd p <> []) l -> NoDup (map (fun p : list Z * list Z => map lower (fst p)) l) ->
  execute PAppend f req = ODone (EAppend true mname data mcat prio top paused mkey score md l).
Proof. exact append_params. Qed.
Print Assumptions C172_append.

Theorem C172_edit : forall f req t cmd n k off args margs ids,
  params_text f req t -> written f true (VStr cmd :: match off with Some o => [VInt o] | None => [] end ++ VStr args :: map VInt ids) t ->
  (off = None -> is_get f = false) -> In (n, k) edit_numbers -> like cmd (str n) -> means f args margs ->
  execute PEdit f req = ODone (EEdit k (match off with Some o => if (k =? 1) || (k =? 11) then zdec o else margs | None => margs end) ids).
Proof. exact edit_ok. Qed.
Print Assumptions C172_edit.

Theorem C172_rate : forall f req t r vs, params_text f req t -> written f false (VInt r :: vs) t -> 0 <= r < 2 ^ 21 ->
  execute PRate f req = ODone (ERate (r * 1024)).
Proof. exact rate_ok. Qed.
Print Assumptions C172_rate.

Theorem C172_resume : forall f req t r vs, params_text f req t -> written f false (VInt r :: vs) t -> 0 <= r -> execute PResume f req = ODone (EResume r).
Proof. exact resume_ok. Qed.
Print Assumptions C172_resume.

Theorem C172_log : forall f req t kd text m vs, params_text f req t -> written f false (VStr (str kd) :: VStr text :: vs) t ->
  In kd ["INFO"; "WARNING"; "ERROR"; "DETAIL"; "DEBUG"]%string -> means f text m -> execute PWriteLog f req = ODone (ELog (str kd) m).
Proof. exact log_ok. Qed.
Print Assumptions C172_log.

Theorem C172_servers : forall f req t l, params_text f req t -> written f true (server_values l) t -> l <> [] -> execute PEditServer f req = ODone (EServers l).
Proof. exact editserver_ok. Qed.
Print Assumptions C172_servers.

(** Unknown names of actions, kinds and modes, negative numbers and missing parameters are refused. *)
Theorem C172_edit_refuses : forall f req t cmd vs, params_text f req t -> written f false (VStr cmd :: vs) t -> (forall n k, In (n, k) edit_numbers -> ~ like cmd (str n)) ->
  execute PEdit f req = OError 3.
Proof. exact edit_refused. Qed.
Print Assumptions C172_edit_refuses.
Theorem C172_log_refuses : forall f req t kd text m vs, params_text f req t -> written f false (VStr kd :: VStr text :: vs) t -> means f text m ->
  (forall k, In k ["INFO"; "WARNING"; "ERROR"; "DETAIL"; "DEBUG"]%string -> kd <> str k) -> execute PWriteLog f req = OError 3.
Proof. exact log_refused. Qed.
Print Assumptions C172_log_refuses.
Theorem C172_negative : forall f req t r vs, params_text f req t -> written f false (VInt r :: vs) t -> r < 0 -> execute PRate f req = OError 2 /\ execute PResume f req = OError 2.
Proof. exact rate_refused. Qed.
Print Assumptions C172_negative.
Theorem C172_missing : forall f req t, params_text f req t -> stops f t -> forall p, execute p f req = OError 2.
Proof. exact nothing_refused. Qed.
Print Assumptions C172_missing.
Theorem C172_mode_refuses : forall f req t name mname content mcontent cat mcat prio top paused key mkey score mode vs,
  params_text f req t ->
  written f false (VStr name :: VStr content :: VStr cat :: VInt prio :: VBool top :: VBool paused :: VStr key :: VInt score :: VStr mode :: vs) t ->
  means f name mname -> means f content mcontent -> means f cat mcat -> means f key mkey -> (forall md, ~ like mode (mode_name md)) ->
  execute PAppend f req = OError 2.
Proof. exact append_mode_refused. Qed.
Print Assumptions C172_mode_refuses.

(** Writing examples. *)
Ltac chars := repeat first [apply Forall_nil|apply Forall_cons; [first [unfold before_value; cbn [In]; lia | cbn; lia | vm_compute; intuition discriminate]|]].
Ltac js v t pre c := eapply (w_json _ _ v _ t pre c); [reflexivity|chars| |first [left; unfold after_value; cbn [In]; lia|right; split; [reflexivity|exact Logic.I]]|].
Ltac jstr ts pre c := js (VStr (body ts)) (34 :: body ts ++ [34]) (str pre) c; [exists ts; split; [chars|split; [vm_compute; exact Logic.I|split; reflexivity]]|].
Ltac jplain s pre c := jstr (map JPlain (str s)) pre c.
Ltac jint z pre c := js (VInt z) (zdec z) (str pre) c; [split; [lia|reflexivity]|].
Ltac jbool b pre c := js (VBool b) (bool_text true b) (str pre) c; [reflexivity|].
Ltac jend t := apply (w_nil _ _ (str t)); intros _; exists [], (str t); split; [apply Forall_nil|]; split; [reflexivity|]; right; eexists _, _; split; [reflexivity|first [left; reflexivity|right; reflexivity]].

(** Post-processing parameters given with the download are not decoded: a password with a quote, as the web-interface sends it, is stored with a backslash. *)
Lemma password_written : exists t, written FJson true (VStr (body (map JPlain (str "a"))) :: VStr (body (map JPlain (str "http://x"))) :: VStr (body []) :: VInt 0 :: VBool false :: VBool false ::
    VStr (body []) :: VInt 0 :: VStr (body (map JPlain (str "SCORE"))) :: VStr (body (map JPlain (str "*Unpack:Password"))) :: VStr (body [JPlain 49; JEsc 34; JPlain 50]) :: []) t /\
  t = str ":[""a"",""http://x"","""",0,false,false,"""",0,""SCORE"",[{""*Unpack:Password"":""1\""2""}]]}".
Proof.
  eexists. split.
  - jplain "a"%string ":["%string 44. jplain "http://x"%string ""%string 44. jstr (@nil jtok) ""%string 44. jint 0 ""%string 44. jbool false ""%string 44. jbool false ""%string 44.
    jstr (@nil jtok) ""%string 44. jint 0 ""%string 44. jplain "SCORE"%string ""%string 44. jplain "*Unpack:Password"%string "[{"%string 58.
    jstr [JPlain 49; JEsc 34; JPlain 50] ""%string 125. jend "]]}"%string.
  - vm_compute. reflexivity.
Qed.
Theorem C172_password_refuted : exists req t raw m, params_text FJson req t /\
  written FJson true (VStr (str "a") :: VStr (str "http://x") :: VStr [] :: VInt 0 :: VBool false :: VBool false :: VStr [] :: VInt 0 :: VStr (str "SCORE") ::
    pair_values [(str "*Unpack:Password", raw)]) t /\ means FJson raw m /\ raw <> m /\
  execute PAppend FJson req = ODone (EAppend true (str "a") (str "http://x") [] 0 false false [] 0 DScore [(str "*Unpack:Password", raw)]).
Proof.
  exists (str "{""params"":[""a"",""http://x"","""",0,false,false,"""",0,""SCORE"",[{""*Unpack:Password"":""1\""2""}]]}"),
    (str ":[""a"",""http://x"","""",0,false,false,"""",0,""SCORE"",[{""*Unpack:Password"":""1\""2""}]]}"), (str "1\""2"), (str "1""2").
  split; [vm_compute; reflexivity|]. split; [destruct password_written as (t & W & <-); exact W|]. split.
  - exists [JPlain 49; JEsc 34; JPlain 50]. split; [chars|split; reflexivity].
  - split; [discriminate|]. vm_compute. reflexivity.
Qed.
Print Assumptions C172_password_refuted.

(** A text with two escapes in a row, here two backslashes, is not read to its end: the message is refused. *)
Theorem C172_escapes_refuted : exists req ts m, Forall jtok_ok ts /\ means FJson (body ts) m /\
  params_text FJson req (str ":[""INFO""," ++ 34 :: body ts ++ str """]}") /\ execute PWriteLog FJson req = OError 2.
Proof.
  exists (str "{""params"":[""INFO"",""\\\\""]}"), [JEsc 92; JEsc 92], [92; 92]. split; [chars|]. split.
  - exists [JEsc 92; JEsc 92]. split; [chars|split; reflexivity].
  - split; vm_compute; reflexivity.
Qed.
Print Assumptions C172_escapes_refuted.

(** The identifier of the request standing behind the parameters is taken for a post-processing parameter when the array of parameters is left out: as a text
    it becomes one, as a number it makes the request fail. *)
Theorem C172_id_refuted : exists p a b, let t x := p ++ str """SCORE""],""id"":" ++ x ++ str "}" in
  execute PAppend FJson (t a) = ODone (EAppend true (str "a") (str "http://x") [] 0 false false [] 0 DScore [(str "id", str "7")]) /\
  execute PAppend FJson (t b) = OError 2 /\
  execute PAppend FJson (p ++ str """SCORE""]}") = ODone (EAppend true (str "a") (str "http://x") [] 0 false false [] 0 DScore []).
Proof.
  exists (str "{""params"":[""a"",""http://x"","""",0,false,false,"""",0,"), (str """7"""), (str "7"). cbv zeta. split; [|split]; vm_compute; reflexivity.
Qed.
Print Assumptions C172_id_refuted.

(** In an address, a text with "&" is cut even if the "&" was written as "%26", as everything is decoded before the parameters are separated. *)
Theorem C172_ampersand_refuted : exists query text, url_decode query = Some text /\ query = str "k=INFO&t=" ++ str "a%26b" /\
  execute PWriteLog (FGet true) text = ODone (ELog (str "INFO") (str "a")).
Proof. exists (str "k=INFO&t=a%26b"), (str "k=INFO&t=a&b"). split; [|split]; vm_compute; reflexivity. Qed.
Print Assumptions C172_ampersand_refuted.

(** In an address, editqueue without the offset takes the arguments for the offset and the first item for the arguments. *)
Theorem C172_offset_refuted : exists req, written (FGet true) true (VStr (str "GroupPause") :: VStr [] :: map VInt [5]) req /\
  execute PEdit (FGet true) req = ODone (EEdit 16 (str "5") []).
Proof.
  exists (str "c" ++ 61 :: str "GroupPause" ++ 38 :: str "a" ++ 61 :: [] ++ 38 :: str "i" ++ 61 :: zdec 5). split; [|vm_compute; reflexivity].
  apply w_get; [reflexivity|notin|split; [notin|reflexivity]|]. apply w_get; [reflexivity|notin|split; [notin|reflexivity]|].
  apply w_last; [reflexivity|notin|split; [lia|reflexivity]].
Qed.
Print Assumptions C172_offset_refuted.

(** A limit of 2 GB/s or more overflows. *)
Theorem C172_rate_refuted : exists r req, 0 <= r < 2 ^ 31 /\ written FXml false [VInt r] req /\ execute PRate FXml req = OUndef.
Proof.
  exists (2 ^ 21), ([] ++ element (str "value") (element (str "i4") (zdec (2 ^ 21))) ++ []). split; [lia|]. split; [|vm_compute; reflexivity].
  apply w_xml; [reflexivity|split; reflexivity|split; [lia|left; reflexivity]|]. constructor. discriminate.
Qed.
Print Assumptions C172_rate_refuted.

(** A text in XML without a type, which by the specification of XML-RPC is a string, is refused. *)
Theorem C172_untyped_refuted : exists text, execute PWriteLog FXml (element (str "value") (element (str "string") (str "INFO")) ++ element (str "value") text) = OError 2 /\
  execute PWriteLog FXml (element (str "value") (element (str "string") (str "INFO")) ++ element (str "value") (element (str "string") text)) = ODone (ELog (str "INFO") text).
Proof. exists (str "hello"). split; vm_compute; reflexivity. Qed.
Print Assumptions C172_untyped_refuted.

Example C172_ex :
  execute PEdit FJson (str "{""method"":""editqueue"",""params"":[""groupmoveoffset"", -2, """", [3, 17]], ""id"":1}") = ODone (EEdit 11 (str "-2") [3; 17]) /\
  execute PEdit FXml (str "<params><param><value><string>GroupSetName</string></value></param><param><value><string>a &lt; b</string></value></param><param><value><array><data><value><i4>5</i4></value></data></array></value></param></params>")
    = ODone (EEdit 29 (str "a < b") [5]) /\
  (exists t, written FJson true (VStr (body (map JPlain (str "grouppause"))) :: VStr (body [JEsc 47]) :: map VInt [3; 17]) t /\
     params_text FJson (str "{""params"":[""grouppause"", ""\/"", [3, 17]],""id"":1}") t) /\
  execute PAppend FJson (str "{""params"":[""a.nzb"",""PG56"",""tv"",-50,true,false,""k"",7,""FORCE"",[{""n"":""v""}]]}")
    = ODone (EAppend true (str "a.nzb") (str "<nz") (str "tv") (-50) true false (str "k") 7 DForce [(str "n", str "v")]) /\
  execute PEditServer FXml (str "<value><int>2</int></value><value><boolean>0</boolean></value>") = ODone (EServers [(2, false)]).
Proof.
  split; [vm_compute; reflexivity|]. split; [vm_compute; reflexivity|]. split; [|split; vm_compute; reflexivity].
  eexists. split.
  - jplain "grouppause"%string ":["%string 44. jstr [JEsc 47] " "%string 44. cbn [map]. jint 3 " ["%string 44. jint 17 " "%string 93. jend "],""id"":1}"%string.
  - vm_compute. reflexivity.
Qed.

(** ** C173: reading parameters stays inside the request and ends *)
(** [None]: memory behind the request was read. In JSON the request ends with a bracket, a brace or a blank. *)
Theorem C173_inside : forall ks f req, (f = FJson -> exists r c, req = r ++ [c] /\ after_value c) -> exists t, reads ks f (prepare f req) = Some (Some t).
Proof. intros ks f req H. destruct (prepare_fine f req H) as (t & -> & F). exact (reads_inside f ks t F). Qed.
Print Assumptions C173_inside.

Theorem C173_ends : forall p f req, execute p f req <> OLoop.
Proof. exact execute_ends. Qed.
Print Assumptions C173_ends.

(** A JSON request that breaks off behind a text or a number: the next parameter is looked for behind the end of the request. *)
Theorem C173_behind_refuted : exists req req2, reads [KStr; KInt] FJson (prepare FJson req) = None /\ execute PEdit FJson req = OUndef /\ execute PEditServer FJson req2 = OUndef.
Proof. exists (str "{""params"":[""GroupPause"""), (str "{""params"":5"). split; [|split]; vm_compute; reflexivity. Qed.
Print Assumptions C173_behind_refuted.

Example C173_ex : (exists t, reads [KStr; KInt; KBool; KStr] FJson (prepare FJson (str "{""params"":[""GroupPause"", 5, ""x}")) = Some (Some t)) /\
  execute PEdit FJson (str "{""params"":[""GroupPause"", 5, ""x]}") = OError 2.
Proof. split; [eexists|]; vm_compute; reflexivity. Qed.
