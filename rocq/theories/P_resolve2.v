(** Proofs about the address that the client looks up (M_resolve): URLs, wget and the packet. *)
From Verif Require Import Bytes M_util M_message M_codec M_cipher M_ctx M_incoming M_client M_resolve S_base64 S_text S_codec S_cipher S_ctx S_conf S_cycle S_client S_resolve
  P_bytes P_util P_util2 P_message P_codec P_ctx6 P_cycle P_incoming3 P_incoming5 P_client P_client2 P_client4 P_resolve.
From Coq Require Import Init.Byte List ZArith Bool Lia.
Import ListNotations.
Open Scope Z_scope.

Lemma drop_slash_id s : last s x00 <> "/"%byte -> drop_slash s = s.
Proof.
  intro L. unfold drop_slash. destruct (rev s) as [|c r] eqn:E; [apply (f_equal (@rev byte)) in E; rewrite rev_involutive in E; auto|].
  destruct (beq c "/"%byte) eqn:B; [|reflexivity]. exfalso. apply beq_eq in B. subst c. apply (f_equal (@rev byte)) in E. rewrite rev_involutive in E. subst s.
  apply L. cbn [rev]. apply last_last.
Qed.
Lemma last_app_ne (a b : bytes) : b <> [] -> last (a ++ b) x00 = last b x00.
Proof.
  intro N. rewrite (app_removelast_last x00 N) at 1. rewrite app_assoc. apply last_last.
Qed.
Lemma last_in (s : bytes) : s <> [] -> In (last s x00) s.
Proof. intro N. rewrite (app_removelast_last x00 N) at 2. apply in_or_app. right. left. reflexivity. Qed.

Definition port_part (port : option bytes) : bytes := match port with Some p => [":"%byte] ++ p | None => [] end.
Lemma strip_text scheme rest : scheme = $ "http" \/ scheme = $ "https" -> strip_scheme (scheme ++ $ "://" ++ rest) = rest.
Proof. intros [->| ->]; reflexivity. Qed.

Lemma digits_no c s : all_digits s -> ~ digit c -> ~ In c s.
Proof. intros A N I. unfold all_digits in A. rewrite Forall_forall in A. exact (N (A c I)). Qed.
Lemma slash_no : ~ digit "/"%byte.
Proof. unfold digit. vm_compute. intuition discriminate. Qed.
Lemma digit_head_text p path : all_digits p -> p <> [] -> (path = [] \/ hd x00 path = "/"%byte) -> integer_text (p ++ path) (decimal p).
Proof.
  intros A N P. exists [], (p ++ path). split; [reflexivity|]. split; [constructor|]. destruct p as [|c p]; [destruct (N eq_refl)|]. cbn [app hd].
  inversion A as [|? ? D A']; subst. apply isdigit_digit in D. split; [intro Q; apply blank_isspace in Q; rewrite (isdigit_not_space c D) in Q; discriminate|].
  right. right. destruct (isdigit_not_sign c D) as [S1 S2]. apply beq_neq in S1, S2. split; [auto|]. split; [auto|].
  exists (c :: p), path. split; [reflexivity|]. split; [auto|]. split; [|reflexivity]. destruct P as [->|P]; [auto|]. right. rewrite P. exact slash_no.
Qed.

Lemma parse_gen n scheme host port path : scheme = $ "http" \/ scheme = $ "https" -> url_ok n host port path -> n <= 5 ->
  exists h, parse_url (url_text scheme host port path) = ret (mkUrl (match port with Some p => ztake 4 p | None => $ "80" end) h (path_or_root path), url_text scheme host port path) /\
    (n <= 4 -> h = host).
Proof.
  intros SC [(NH & CH & SH & HE & LH) UP (NP & CP & LP & PP)] N5.
  assert (PP' : path = [] \/ hd x00 path = "/"%byte) by (destruct PP as [->|[? _]]; auto).
  unfold parse_url, url_text. fold (port_part port). rewrite strip_text by auto.
  assert (NES : host ++ port_part port ++ path <> []) by (destruct host; [destruct (HE eq_refl)|discriminate]).
  assert (LAST : last (host ++ port_part port ++ path) x00 <> "/"%byte).
  { destruct PP as [->|[P1 P2]].
    - rewrite app_nil_r. destruct port as [p|]; cbn [port_part].
      + destruct UP as (A & _ & _ & V). assert (p <> []) by (intros ->; cbn in V; lia). change ([":"%byte] ++ p) with ([":"%byte] ++ p). rewrite app_assoc, last_app_ne by auto.
        intro Q. apply (digits_no _ p A slash_no). rewrite <- Q. apply last_in. auto.
      + rewrite app_nil_r. intro Q. apply SH. rewrite <- Q. apply last_in. auto.
    - assert (path <> []) by (intros ->; discriminate P1). rewrite app_assoc, last_app_ne by auto. exact P2. }
  assert (DU : drop_slash (scheme ++ $ "://" ++ host ++ port_part port ++ path) = scheme ++ $ "://" ++ host ++ port_part port ++ path).
  { apply drop_slash_id. rewrite app_assoc, last_app_ne by auto. exact LAST. }
  assert (NEU : exists c r, scheme ++ $ "://" ++ host ++ port_part port ++ path = c :: r) by (destruct SC as [->| ->]; cbn; eauto).
  assert (REST : strchr "/"%byte (host ++ port_part port ++ path) = match path with [] => None | _ => Some path end).
  { assert (NS : ~ In "/"%byte (host ++ port_part port)).
    { rewrite in_app_iff. intros [I|I]; [auto|]. destruct port as [p|]; cbn [port_part] in I; [|destruct I]. destruct I as [I|I]; [discriminate I|]. revert I. apply digits_no; [apply UP|exact slash_no]. }
    destruct PP as [->|[P1 P2]]; [rewrite app_nil_r; apply strchr_none; auto|]. destruct path as [|c path]; [discriminate P1|]. cbn in P1. subst c. rewrite app_assoc. apply strchr_app. auto. }
  assert (KEY : forall off tp, off = zlen (port_part port) \/ (n > 4 /\ off = zlen (port_part port) - 1) -> exists h,
    match scheme ++ $ "://" ++ host ++ port_part port ++ path with
    | [] => Fault
    | _ :: _ =>
      let s := drop_slash (host ++ port_part port ++ path) in let rest := strchr "/"%byte s in
      let tlen := match rest with None => zlen s + 1 | Some r => zlen s - zlen r + 1 end - off in
      if tlen >? MAX_URL_HOST_LEN then fail
      else try x <- (if tlen <? 0 then if zlen s + 1 >? MAX_URL_HOST_LEN + 1 then Fault else ret s else if tlen =? 0 then ret [] else ret (held tlen s));
        match rest with
        | Some r => if zlen r >? MAX_URL_PATH_LEN then fail else ret (mkUrl tp x r, drop_slash (scheme ++ $ "://" ++ host ++ port_part port ++ path))
        | None => ret (mkUrl tp x ($ "/"), drop_slash (scheme ++ $ "://" ++ host ++ port_part port ++ path))
        end
    end = ret (mkUrl tp h (path_or_root path), scheme ++ $ "://" ++ host ++ port_part port ++ path) /\ (n <= 4 -> h = host)).
  { intros off tp OFF. destruct NEU as (c & r & EU). rewrite EU in DU |- *. cbv zeta. rewrite (drop_slash_id _ LAST). rewrite REST.
    assert (TL : exists tlen, match (match path with [] => None | _ :: _ => Some path end) with None => zlen (host ++ port_part port ++ path) + 1 | Some r0 => zlen (host ++ port_part port ++ path) - zlen r0 + 1 end - off = tlen /\
      (tlen = zlen host + 1 \/ (n > 4 /\ tlen = zlen host + 2))).
    { eexists. split; [reflexivity|]. destruct path as [|x path]; rewrite !zlen_app; [change (zlen (@nil byte)) with 0|]; destruct OFF as [-> |[G ->]]; [left|right|left|right]; try split; auto; lia. }
    destruct TL as (tlen & -> & T). pose proof (zlen_nonneg host). unfold MAX_URL_HOST_LEN, MAX_URL_PATH_LEN.
    replace (tlen >? 256) with false by (destruct T as [->|[_ ->]]; lia). replace (tlen <? 0) with false by (destruct T as [->|[_ ->]]; lia).
    replace (tlen =? 0) with false by (destruct T as [->|[_ ->]]; lia). cbn [sbind ret]. unfold held.
    exists (ztake (tlen - 1) (host ++ port_part port ++ path)). split.
    - rewrite DU. destruct path as [|x path]; [reflexivity|]. replace (zlen (x :: path) >? 1024) with false by lia. reflexivity.
    - intro N4. destruct T as [->|[T _]]; [|lia]. apply ztake_app. lia. }
  destruct port as [p|]; cbn [port_part] in *.
  - destruct UP as (A & Z0 & LPP & V). assert (PE : p <> []) by (intros ->; cbn in V; lia).
    change (host ++ ([":"%byte] ++ p) ++ path) with (host ++ ":"%byte :: p ++ path) at 1.
    rewrite strchr_app by auto. replace (zdrop 1 (":"%byte :: p ++ path)) with (p ++ path) by reflexivity.
    assert (DP : dec (decimal p) = p).
    { apply (writes_unique _ _ (decimal p)); [apply dec_writes; lia|]. split; [auto|]. split; [exact A|]. split; [reflexivity|]. intro Q. destruct (Z0 Q). }
    assert (SW : strtol_wrapper (p ++ path) 1 MAX_PORT = (decimal p, STRTOL_OK)).
    { apply (P_access.strtol_wrapper_iff (p ++ path) 1 MAX_PORT (decimal p) (digit_head_text p path A PE PP')); unfold MAX_PORT; lia. }
    rewrite SW. 
    cbn [negb strtol_ok ret sbind]. rewrite DP. unfold held. change (M_client.MAX_PORT_STR_LEN - 1) with 4. apply KEY.
    cbn [app]. rewrite zlen_cons, ztake_min by lia. destruct (Z_le_gt_dec (zlen p) 4); [left; lia|right; lia].
  - change (host ++ [] ++ path) with (host ++ path). rewrite strchr_none by (rewrite in_app_iff; tauto). cbn [ret sbind]. apply KEY. left. reflexivity.
Qed.

Lemma parse_http host port path : url_ok 4 host port path ->
  parse_url (url_text ($ "http") host port path) = ret (mkUrl (port_or_80 port) host (path_or_root path), url_text ($ "http") host port path).
Proof.
  intro U. destruct (parse_gen 4 ($ "http") host port path (or_introl eq_refl) U ltac:(lia)) as (h & E & HH). rewrite HH in E by lia. rewrite E.
  destruct port as [p|]; [|reflexivity]. cbn [port_or_80]. rewrite ztake_all; [reflexivity|]. apply U.
Qed.
Lemma parse_any scheme host port path : scheme = $ "http" \/ scheme = $ "https" -> url_ok 5 host port path ->
  exists p, parse_url (url_text scheme host port path) = ret (p, url_text scheme host port path).
Proof. intros S U. destruct (parse_gen 5 scheme host port path S U ltac:(lia)) as (h & E & _). eauto. Qed.

Lemma request_is agent u : zlen (get_page agent (u_host u) (u_path u)) < 2000 -> request agent u = get_page agent (u_host u) (u_path u).
Proof.
  intro L. unfold request, held, HTTP_MAX_REQUEST_LEN. assert (E : get_page agent (u_host u) (u_path u) = $ "GET " ++ u_path u ++ $ " HTTP/1.1" ++ crlf ++ $ "User-Agent: " ++ agent ++ crlf ++ $ "Accept: */*" ++ crlf ++
    $ "Host: " ++ u_host u ++ crlf ++ $ "Connection: close" ++ crlf ++ crlf).
  { unfold get_page, line, crlf. rewrite <- !app_assoc. reflexivity. }
  rewrite <- E. apply ztake_all. lia.
Qed.
Lemma try_iff w agent u ip : zlen (get_page agent (u_host u) (u_path u)) < 2000 ->
  try_url w agent u = Some ip <-> exists answer, w (u_host u) (u_port u) = Some answer /\ answer_names (answer (get_page agent (u_host u) (u_path u))) ip.
Proof.
  intro L. unfold try_url. rewrite request_is by auto. destruct (w (u_host u) (u_port u)) as [a|].
  - rewrite http_address_iff. split; [eauto|]. intros (x & E & A). injection E as <-. exact A.
  - split; [discriminate|]. intros (x & E & _). discriminate E.
Qed.
Theorem http_own w q host port path ip : url_ok 4 host port path -> r_url q = Some (url_text ($ "http") host port path) ->
  zlen (get_page (r_agent q) host (path_or_root path)) < 2000 ->
  resolve_ip_http w q = Ok (Some ip) <->
  exists answer, w host (port_or_80 port) = Some answer /\ answer_names (answer (get_page (r_agent q) host (path_or_root path))) ip.
Proof.
  intros U EQ L. unfold resolve_ip_http. rewrite EQ. replace (starts_with ($ "https") (url_text ($ "http") host port path)) with false by reflexivity.
  rewrite parse_http by auto. cbn [ret sbind]. rewrite <- (try_iff w (r_agent q) (mkUrl (port_or_80 port) host (path_or_root path)) ip L).
  destruct (try_url _ _ _) as [x|]; unfold ret, fail; split; congruence.
Qed.
Theorem http_default w q ip : r_url q = None -> zlen (r_agent q) <= 99 ->
  resolve_ip_http w q = Ok (Some ip) <->
  let asked host := exists answer, w host ($ "80") = Some answer /\ answer_names (answer (get_page (r_agent q) host ($ "/cgi-bin/myip"))) ip in
  let nothing host := ~ exists answer i, w host ($ "80") = Some answer /\ answer_names (answer (get_page (r_agent q) host ($ "/cgi-bin/myip"))) i in
  asked ($ "www.cipherdyne.org") \/ (nothing ($ "www.cipherdyne.org") /\ asked ($ "www.cipherdyne.com")).
Proof.
  intros EQ L. cbv zeta. unfold resolve_ip_http. rewrite EQ.
  assert (LL : forall h, zlen h <= 100 -> zlen (get_page (r_agent q) h ($ "/cgi-bin/myip")) < 2000).
  { intros h LH. unfold get_page, line. rewrite !zlen_app. change (zlen ($ "GET ")) with 4. change (zlen ($ "/cgi-bin/myip")) with 13. change (zlen ($ " HTTP/1.1")) with 9.
    change (zlen [x0d; x0a]) with 2. change (zlen ($ "User-Agent: ")) with 12. change (zlen ($ "Accept: */*")) with 11. change (zlen ($ "Host: ")) with 6. change (zlen ($ "Connection: close")) with 17.
    change (zlen (@nil byte)) with 0. lia. }
  pose proof (fun i => try_iff w (r_agent q) (mkUrl ($ "80") RESOLVE_HOST RESOLVE_PATH) i (LL RESOLVE_HOST ltac:(vm_compute; discriminate))) as T1.
  pose proof (fun i => try_iff w (r_agent q) (mkUrl ($ "80") BACKUP_HOST RESOLVE_PATH) i (LL BACKUP_HOST ltac:(vm_compute; discriminate))) as T2.
  cbn [u_host u_port u_path] in T1, T2. unfold RESOLVE_HOST, BACKUP_HOST, RESOLVE_PATH in *.
  destruct (try_url w (r_agent q) (mkUrl ($ "80") ($ "www.cipherdyne.org") ($ "/cgi-bin/myip"))) as [x|].
  - split.
    + intro E. left. apply T1. unfold ret in E. congruence.
    + intros [A|[N _]]; [apply T1 in A; unfold ret; congruence|]. exfalso. apply N. destruct (proj1 (T1 x) eq_refl) as (a & A & B). eauto.
  - destruct (try_url w (r_agent q) (mkUrl ($ "80") ($ "www.cipherdyne.com") ($ "/cgi-bin/myip"))) as [x|].
    + split.
      * intro E. right. split; [|apply T2; unfold ret in E; congruence]. intros (a & i & A & B). assert (None = Some i) by (apply T1; eauto). discriminate.
      * intros [A|[_ A]]; [apply T1 in A; discriminate A|]. apply T2 in A. unfold ret. congruence.
    + unfold fail. split; [discriminate|]. intros [A|[_ A]]; [apply T1 in A|apply T2 in A]; discriminate A.
Qed.

(** ** wget *)
Lemma append_fits a b : zlen a + zlen b < 1024 -> append a b = a ++ b.
Proof. intro L. unfold append, held, MAX_URL_PATH_LEN. apply ztake_all. rewrite zlen_app. lia. Qed.
Lemma words_cons sp w t ws : Forall blank sp -> one_word w -> (t = [] \/ blank (hd x00 t)) -> words t ws -> words (sp ++ w ++ t) (w :: ws).
Proof. intros S [N W] T R. constructor; auto. Qed.
Lemma space_blank : Forall blank [" "%byte].
Proof. repeat constructor. Qed.
Lemma word_ok s : (match s with [] => false | _ => true end) && forallb (fun c => negb (isspace c)) s = true -> one_word s.
Proof.
  rewrite andb_true_iff, forallb_forall. intros [N F]. split; [intros ->; discriminate N|]. apply Forall_forall. intros c I Q. apply blank_isspace in Q. specialize (F c I). rewrite Q in F. discriminate F.
Qed.
Theorem https_own exe exec q bin scheme host port path u ip :
  bin = match r_wget q with Some b => Some b | None => exe end -> scheme = $ "http" \/ scheme = $ "https" ->
  match r_url q with Some u' => u' = u /\ url_ok 5 host port path /\ u = url_text scheme host port path | None => u = $ "https://www.cipherdyne.org/cgi-bin/myip" end ->
  forall b, bin = Some b -> one_word b -> one_word u -> (r_wget_agent q = false -> one_word (r_agent q)) ->
  zlen b + zlen u + (if r_wget_agent q then 0 else zlen (r_agent q)) <= 980 ->
  resolve_ip_https exe exec q = Ok (Some ip) <-> names (exec (wget_args b (if r_wget_agent q then None else Some (r_agent q)) u)) ip.
Proof.
  intros -> SC UQ b EB WB WU WA L. unfold resolve_ip_https, wget_cmd. rewrite EB.
  pose proof (zlen_nonneg b). pose proof (zlen_nonneg u). pose proof (zlen_nonneg (r_agent q)).
  assert (HB : held MAX_URL_PATH_LEN b = b) by (unfold held, MAX_URL_PATH_LEN; apply ztake_all; destruct (r_wget_agent q); lia). rewrite HB.
  set (ag := if r_wget_agent q then [] else $ " -U " ++ r_agent q).
  assert (LAG : zlen ag <= (if r_wget_agent q then 0 else zlen (r_agent q)) + 4) by (unfold ag; destruct (r_wget_agent q); [vm_compute; discriminate|rewrite zlen_app; change (zlen ($ " -U ")) with 4; lia]).
  assert (E1 : (if r_wget_agent q then b else append (append b ($ " -U ")) (r_agent q)) = b ++ ag).
  { unfold ag. destruct (r_wget_agent q); [rewrite app_nil_r; reflexivity|]. rewrite (append_fits b) by (change (zlen ($ " -U ")) with 4; lia).
    rewrite append_fits by (rewrite zlen_app; change (zlen ($ " -U ")) with 4; lia). rewrite <- app_assoc. reflexivity. }
  cbv zeta. rewrite E1. set (mid := $ " --secure-protocol=auto --quiet -O - "). assert (LM : zlen mid = 37) by reflexivity.
  assert (E2 : append (b ++ ag) mid = (b ++ ag) ++ mid) by (apply append_fits; rewrite zlen_app, LM; destruct (r_wget_agent q); lia). rewrite E2.
  assert (E3 : match r_url q with Some u0 => try (_, u') <- parse_url u0; ret (append ((b ++ ag) ++ mid) u') | None => ret (append ((b ++ ag) ++ mid) RESOLVE_SSL) end = ret (((b ++ ag) ++ mid) ++ u)).
  { assert (AU : append ((b ++ ag) ++ mid) u = ((b ++ ag) ++ mid) ++ u) by (apply append_fits; rewrite !zlen_app, LM; destruct (r_wget_agent q); lia).
    destruct (r_url q) as [u0|].
    - destruct UQ as (-> & UO & UT). destruct (parse_any scheme host port path SC UO) as [p PE]. rewrite UT at 1. rewrite PE. cbn [ret sbind]. rewrite <- UT, AU. reflexivity.
    - change RESOLVE_SSL with ($ "https://www.cipherdyne.org/cgi-bin/myip"). rewrite <- UQ, AU. reflexivity. }
  rewrite E3. cbn [ret sbind].
  set (ws := wget_args b (if r_wget_agent q then None else Some (r_agent q)) u).
  assert (W : words (((b ++ ag) ++ mid) ++ u) ws).
  { rewrite <- !app_assoc.
    assert (WM : words (mid ++ u) [$ "--secure-protocol=auto"; $ "--quiet"; $ "-O"; $ "-"; u]).
    { change mid with ([" "%byte] ++ $ "--secure-protocol=auto" ++ [" "%byte] ++ $ "--quiet" ++ [" "%byte] ++ $ "-O" ++ [" "%byte] ++ $ "-" ++ [" "%byte]).
      rewrite <- !app_assoc. do 4 (apply words_cons; [exact space_blank|apply word_ok; reflexivity|right; vm_compute; auto|]).
      rewrite <- (app_nil_r u) at 1. apply words_cons; [exact space_blank|auto|auto|]. constructor. constructor. }
    unfold ws, wget_args, ag. change (b ++ (if r_wget_agent q then [] else $ " -U " ++ r_agent q) ++ mid ++ u) with ([] ++ b ++ (if r_wget_agent q then [] else $ " -U " ++ r_agent q) ++ mid ++ u).
    destruct (r_wget_agent q).
    - cbn [app]. apply (words_cons []); auto. right. vm_compute. auto.
    - cbn [app]. change ($ " -U ") with ([" "%byte] ++ $ "-U" ++ [" "%byte]). rewrite <- !app_assoc. apply (words_cons []); auto; [right; vm_compute; auto|].
      apply words_cons; [exact space_blank|apply word_ok; reflexivity|right; vm_compute; auto|]. apply words_cons; [exact space_blank|apply WA; auto|right; vm_compute; auto|exact WM]. }
  assert (SW : strtoargv (((b ++ ag) ++ mid) ++ u) = Ok (Some ws)).
  { rewrite (strtoargv_words _ _ W).
    - replace (zlen ws <? 29) with true; [reflexivity|]. unfold ws, wget_args. destruct (r_wget_agent q); reflexivity.
    - unfold ws, wget_args. destruct (r_wget_agent q); cbn [app]; repeat constructor; try reflexivity; lia. }
  rewrite SW, address_in_line, <- address_in_iff. destruct (address_in (exec ws)) as [x|]; unfold ret, fail; split; congruence.
Qed.

(** ** The packet *)
Lemma address_in_chars s ip : address_in s = Some ip -> Forall address_char ip /\ zlen ip <= 15.
Proof.
  intro E. apply address_in_iff in E as (run & rest & _ & F & L & _ & _ & ->). split.
  - apply Forall_forall. intros x X. unfold ztake in X. apply P_ctx6.In_firstn in X. rewrite Forall_forall in F. auto.
  - pose proof (ztake_min 15 run). lia.
Qed.
Lemma resolve_chars w exe exec q ip : resolve w exe exec q = Ok (Some ip) -> Forall address_char ip /\ zlen ip <= 15.
Proof.
  assert (T : forall a u x, try_url w a u = Some x -> Forall address_char x /\ zlen x <= 15).
  { intros a u x E. unfold try_url in E. destruct (w (u_host u) (u_port u)); [|discriminate E]. unfold http_address in E. destruct (strstr _ _ _); [|discriminate E]. eapply address_in_chars; eauto. }
  unfold resolve. destruct (r_http_only q); intro E.
  - unfold resolve_ip_http in E. destruct (r_url q) as [u|].
    + destruct (starts_with _ u); [discriminate E|]. apply sbind_ok in E as ([p u'] & _ & E). destruct (try_url _ _ _) as [x|] eqn:X; [|discriminate E]. injection E as <-. eauto.
    + destruct (try_url w (r_agent q) (mkUrl ($ "80") RESOLVE_HOST RESOLVE_PATH)) as [x|] eqn:X; [injection E as <-; eauto|].
      destruct (try_url w (r_agent q) (mkUrl ($ "80") BACKUP_HOST RESOLVE_PATH)) as [x|] eqn:X2; [injection E as <-; eauto|discriminate E].
  - unfold resolve_ip_https in E. apply sbind_ok in E as (c & _ & E). destruct (strtoargv c) as [[argv|]|]; [|discriminate E|discriminate E].
    destruct (address_in _) as [x|] eqn:X; [|discriminate E]. injection E as <-. eapply address_in_chars; eauto.
Qed.
Lemma ip_options ip o : options_ok o -> Forall address_char ip -> zlen ip <= 15 -> options_ok (set_ip ip o).
Proof.
  intros [] F L. assert (NI : forall c, ~ address_char c -> ~ In c ip) by (intros c N I; rewrite Forall_forall in F; exact (N (F c I))).
  constructor; cbn [set_ip o_server o_ip o_access o_command o_nat_access o_nat_port o_timeout o_plus o_minus o_user o_key o_hmac]; auto.
  split; [apply NI|split; [apply NI|exact L]]; unfold address_char, digit; vm_compute; intuition discriminate.
Qed.
Lemma access_ip ip t : ~ In ","%byte ip -> access_request (ip ++ [","%byte] ++ t) -> exists a b c d, ipv4_text ip a b c d.
Proof.
  intros NI (i & items & a & b & c & d & E & NE & V & _). destruct items as [|x items]; [destruct (NE eq_refl)|].
  change (join [","%byte] (i :: x :: items)) with (i ++ [","%byte] ++ join [","%byte] (x :: items)) in E. apply app_split_comma in E as [-> _]; eauto.
  intro I. pose proof (ipv4_text_chars i a b c d V) as F. rewrite Forall_forall in F. specialize (F _ I). destruct F as [F|F]; [discriminate F|]. unfold digit in F. vm_compute in F. intuition discriminate.
Qed.
Theorem packet_address H v w exe exec q o h : options_ok o -> world_ok v -> (o_nat_rand o = true -> v_seed v 1%nat = true) -> o_command o = [] ->
  resolve_and_make H v w exe exec q o = Ok (Some h) ->
  exists ip a b c d, resolve w exe exec q = Ok (Some ip) /\ ipv4_text ip a b c d /\ options_ok (set_ip ip o) /\ make_packet H v (set_ip ip o) = Ok (Some h).
Proof.
  intros OK WO SEED C E. unfold resolve_and_make in E. rewrite C in E. cbn [given] in E. apply sbind_ok in E as (ip & R & E).
  destruct (resolve_chars _ _ _ _ _ R) as [F L]. pose proof (ip_options ip o OK F L) as OK2.
  pose proof E as E0. unfold make_packet in E0. apply sbind_ok in E0 as (h0 & B & _).
  destruct (build_ok H v (set_ip ip o) h0 OK2 WO SEED B) as (r & u & tm & ty & msg & na & to & dt & mo & _ & BU).
  destruct (bu_msg _ _ _ _ _ _ _ _ _ _ _ BU) as (t & EM & _ & _ & M). cbn [set_ip o_command o_ip] in M, EM. rewrite C in M. destruct M as [_ AR]. rewrite EM in AR.
  destruct (access_ip ip t) as (a & b & c & d & V); [apply OK2|exact AR|]. exists ip, a, b, c, d. auto.
Qed.
Theorem command_never H v w exe exec q o h : options_ok o -> world_ok v -> (o_nat_rand o = true -> v_seed v 1%nat = true) -> o_command o <> [] -> o_ip o = [] ->
  resolve_and_make H v w exe exec q o <> Ok (Some h).
Proof.
  intros OK WO SEED C I E. unfold resolve_and_make in E. destruct (o_command o) as [|x cm] eqn:EC; [destruct (C eq_refl)|]. cbn [given] in E.
  unfold make_packet in E. apply sbind_ok in E as (h0 & B & _).
  destruct (build_ok H v o h0 OK WO SEED B) as (r & u & tm & ty & msg & na & to & dt & mo & _ & BU).
  destruct (bu_msg _ _ _ _ _ _ _ _ _ _ _ BU) as (t & EM & _ & _ & M). rewrite EC in M. destruct M as [_ (ip & cmd & a & b & c & d & E2 & V & _)].
  rewrite EM, I in E2. apply app_split_comma in E2 as [<- _]; [|exact (fun F => F)|].
  - destruct V as (A & B' & C' & D & E3 & _). apply (f_equal zlen) in E3. rewrite !zlen_app in E3. change (zlen ["."%byte]) with 1 in E3. change (zlen (@nil byte)) with 0 in E3.
    pose proof (zlen_nonneg A). pose proof (zlen_nonneg B'). pose proof (zlen_nonneg C'). pose proof (zlen_nonneg D). lia.
  - intro IN. pose proof (ipv4_text_chars ip a b c d V) as F. rewrite Forall_forall in F. specialize (F _ IN). destruct F as [F|F]; [discriminate F|]. unfold digit in F. vm_compute in F. intuition discriminate.
Qed.

(** ** Ordinary answers *)
Lemma canonical_small s v : canonical_octet s v -> small s /\ zlen s <= 3.
Proof.
  intros (N & A & -> & V & Z0). pose proof (decimal_bound s A). split; [split; [auto|]; split; [auto|]; rewrite Z.mod_small by lia; lia|].
  assert (E : s = dec (decimal s)) by (apply (writes_unique _ _ (decimal s)); [split; [auto|]; split; [auto|]; split; [reflexivity|auto]|apply dec_writes; lia]).
  rewrite E. destruct (dec_spec (decimal s) ltac:(lia)) as (_ & _ & _ & K). apply K; lia.
Qed.
Lemma small_chars s : small s -> Forall address_char s.
Proof. intros (_ & A & _). unfold all_digits in A. rewrite Forall_forall in *. intros x X. left. auto. Qed.
Lemma plain_names ip rest : plain_address ip -> rest = [] \/ ~ address_char (hd x00 rest) -> names (ip ++ rest) ip.
Proof.
  intros (A & B & C & D & a & b & c & d & E & CA & CB & CC & CD) R.
  apply canonical_small in CA as [SA LA], CB as [SB LB], CC as [SC LC], CD as [SD LD].
  assert (L : zlen ip <= 15) by (rewrite E, !zlen_app; change (zlen ["."%byte]) with 1; lia).
  assert (DT : Forall address_char ["."%byte]) by (constructor; [right; reflexivity|constructor]).
  exists ip, rest. split; [reflexivity|]. split.
  { rewrite E. repeat (apply Forall_app; split); auto using small_chars. }
  split; [lia|]. split; [tauto|]. split; [|symmetry; apply ztake_all; auto].
  exists A, B, C, D, []. rewrite app_nil_r. auto 10.
Qed.
Theorem ordinary_answer pieces header ip rest : concat pieces = header ++ blank_line ++ ip ++ rest -> Forall (fun p => p <> []) pieces -> zlen (concat pieces) < 2000 ->
  no_nul (concat pieces) -> (forall a b, header ++ [x0d; x0a; x0d] <> a ++ blank_line ++ b) -> plain_address ip -> rest = [] \/ ~ address_char (hd x00 rest) ->
  answer_names pieces ip.
Proof.
  intros E F L N H P R. exists (concat pieces), (concat pieces), [], header, (ip ++ rest). split.
  - exists pieces, []. rewrite app_nil_r. auto.
  - rewrite app_nil_r. split; [reflexivity|]. split; [auto|]. split; [auto|]. split; [auto|]. split; [auto|]. apply plain_names; auto.
Qed.
