(** The address that the client finds out with -R. *)
From Verif Require Import Bytes M_util M_message M_codec M_cipher M_ctx M_incoming M_client M_resolve S_base64 S_text S_codec S_cipher S_ctx S_conf S_cycle S_client S_resolve
  P_bytes P_util P_client2 P_resolve P_resolve2 T_codec T_client.
From Coq Require Import Init.Byte List ZArith Bool Lia.
Import ListNotations.
Open Scope Z_scope.

(** ** Samples *)
Definition agent0 : bytes := $ "Fwknop/2.6.11".
Definition page (body : bytes) : bytes := $ "HTTP/1.1 200 OK" ++ [x0d; x0a] ++ $ "Server: x" ++ blank_line ++ body.
(** A host that answers with one page, cut into two pieces. *)
Definition site (host port : bytes) (p : bytes) : web :=
  fun h q => if bseq h host && bseq q port then Some (fun _ => [ztake 10 p; zdrop 10 p]) else None.
Definition asks (u : bytes) : resolver := mkResolver (Some u) agent0 None false true.
Definition with_wget (u : option bytes) (agent : bytes) : resolver := mkResolver u agent None false false.
Definition exe0 : option bytes := Some ($ "/usr/bin/wget").
Lemma plain0 : plain_address ($ "203.0.113.7").
Proof.
  exists ($ "203"), ($ "0"), ($ "113"), ($ "7"), 203, 0, 113, 7. split; [reflexivity|].
  repeat split; try discriminate; try (vm_compute; discriminate); repeat constructor; vm_compute; discriminate.
Qed.
Ltac notin := let Q := fresh in intro Q; vm_compute in Q; decompose [or] Q; try discriminate; contradiction.
Lemma url0 n : 4 <= n -> url_ok n ($ "ip.example.org") (Some ($ "8080")) ($ "/me").
Proof.
  intro N. constructor.
  - repeat split; try notin; try discriminate; vm_compute; discriminate.
  - split; [repeat constructor; vm_compute; discriminate|]. split; [discriminate|]. split; [change (zlen ($ "8080")) with 4; lia|split; vm_compute; discriminate].
  - repeat split; try notin; try (vm_compute; discriminate). right. split; [reflexivity|discriminate].
Qed.

(** ** C85 The address that -R asks access for *)

(** What an ordinary answer names: the text between its header and the first character that
    is neither a digit nor a dot, however the answer is cut into pieces. *)
Theorem C85_ordinary_partial : forall pieces header ip rest,
  concat pieces = header ++ blank_line ++ ip ++ rest -> Forall (fun p => p <> []) pieces -> zlen (concat pieces) < 2000 ->
  no_nul (concat pieces) -> (forall a b, header ++ [x0d; x0a; x0d] <> a ++ blank_line ++ b) -> plain_address ip -> rest = [] \/ ~ address_char (hd x00 rest) ->
  answer_names pieces ip.
Proof. exact ordinary_answer. Qed.
Print Assumptions C85_ordinary_partial.
(** With a URL of the user: the host, the port and the page asked for are those of the URL, and
    the address is the one that its answer names.  Missing for the full property: the URLs and
    answers refuted below. *)
Theorem C85_http_partial : forall w q host port path ip, url_ok 4 host port path -> r_url q = Some (url_text ($ "http") host port path) ->
  zlen (get_page (r_agent q) host (path_or_root path)) < 2000 ->
  resolve_ip_http w q = Ok (Some ip) <->
  exists answer, w host (port_or_80 port) = Some answer /\ answer_names (answer (get_page (r_agent q) host (path_or_root path))) ip.
Proof. exact http_own. Qed.
Print Assumptions C85_http_partial.
(** Without a URL: one host, and if it names no address a second one. *)
Theorem C85_http_default : forall w q ip, r_url q = None -> zlen (r_agent q) <= 99 ->
  resolve_ip_http w q = Ok (Some ip) <->
  let asked host := exists answer, w host ($ "80") = Some answer /\ answer_names (answer (get_page (r_agent q) host ($ "/cgi-bin/myip"))) ip in
  let nothing host := ~ exists answer i, w host ($ "80") = Some answer /\ answer_names (answer (get_page (r_agent q) host ($ "/cgi-bin/myip"))) i in
  asked ($ "www.cipherdyne.org") \/ (nothing ($ "www.cipherdyne.org") /\ asked ($ "www.cipherdyne.com")).
Proof. exact http_default. Qed.
Print Assumptions C85_http_default.
(** With wget: it is run directly, with the agent and the URL as one argument each, and the
    address is the one that its output names.  Missing for the full property: see below. *)
Theorem C85_wget_partial : forall exe exec q b u ip, (r_wget q = Some b \/ (r_wget q = None /\ exe = Some b)) ->
  (r_url q = None /\ u = $ "https://www.cipherdyne.org/cgi-bin/myip" \/
   exists scheme host port path, r_url q = Some u /\ (scheme = $ "http" \/ scheme = $ "https") /\ url_ok 5 host port path /\ u = url_text scheme host port path) ->
  one_word b -> one_word u -> (r_wget_agent q = false -> one_word (r_agent q)) ->
  zlen b + zlen u + (if r_wget_agent q then 0 else zlen (r_agent q)) <= 980 ->
  resolve_ip_https exe exec q = Ok (Some ip) <-> names (exec (wget_args b (if r_wget_agent q then None else Some (r_agent q)) u)) ip.
Proof.
  intros exe exec q b u ip B U W1 W2 W3 L.
  assert (EB : Some b = match r_wget q with Some b => Some b | None => exe end) by (destruct B as [->|[-> ->]]; reflexivity).
  destruct U as [[EU UD]|(scheme & host & port & path & EU & SC & UO & UT)].
  - apply (https_own exe exec q (Some b) ($ "http") [] None [] u ip EB (or_introl eq_refl)); auto. rewrite EU. exact UD.
  - apply (https_own exe exec q (Some b) scheme host port path u ip EB SC); auto. rewrite EU. auto.
Qed.
Print Assumptions C85_wget_partial.
(** The packet: if there is one, an address was found, it is an IPv4 address and it is what the
    packet asks access for (see C64 for the rest of it). *)
Theorem C85_packet : forall H v w exe exec q o h, options_ok o -> world_ok v -> (o_nat_rand o = true -> v_seed v 1%nat = true) -> o_command o = [] ->
  resolve_and_make H v w exe exec q o = Ok (Some h) ->
  exists ip a b c d, (if r_http_only q then resolve_ip_http w q else resolve_ip_https exe exec q) = Ok (Some ip) /\
    ipv4_text ip a b c d /\ options_ok (set_ip ip o) /\ make_packet H v (set_ip ip o) = Ok (Some h).
Proof. exact packet_address. Qed.
Print Assumptions C85_packet.
Example C85_ex : url_ok 4 ($ "ip.example.org") (Some ($ "8080")) ($ "/me") /\ plain_address ($ "203.0.113.7") /\
  answer_names [ztake 10 (page ($ "203.0.113.7" ++ [x0a])); zdrop 10 (page ($ "203.0.113.7" ++ [x0a]))] ($ "203.0.113.7") /\
  resolve_ip_http (site ($ "ip.example.org") ($ "8080") (page ($ "203.0.113.7" ++ [x0a]))) (asks ($ "http://ip.example.org:8080/me")) = Ok (Some ($ "203.0.113.7")) /\
  resolve_ip_https exe0 (fun a => if bseq (last a []) ($ "https://ip.example.org") then $ "203.0.113.7" else []) (with_wget (Some ($ "https://ip.example.org")) agent0) = Ok (Some ($ "203.0.113.7")) /\
  match resolve_and_make toy v0 (site ($ "ip.example.org") ($ "8080") (page ($ "203.0.113.7" ++ [x0a]))) None (fun _ => []) (asks ($ "http://ip.example.org:8080/me")) (opts [] ($ "tcp/22") [] [] 0 false 60 0 0 pw0 hk0 3)
  with Ok (Some _) => true | _ => false end = true.
Proof.
  split; [exact (url0 4 ltac:(lia))|]. split; [exact plain0|]. split.
  - apply (http_address_iff _ ($ "203.0.113.7")). vm_compute. reflexivity.
  - split; [vm_compute; reflexivity|]. split; vm_compute; reflexivity.
Qed.

(** A port of five digits: the last one is lost, and the colon becomes part of the host name. *)
Theorem C85_port_refuted : let q := asks ($ "http://ip.example.org:12345/me") in
  resolve_ip_http (site ($ "ip.example.org") ($ "12345") (page ($ "203.0.113.7"))) q = Ok None /\
  resolve_ip_http (site ($ "ip.example.org:") ($ "1234") (page ($ "203.0.113.7"))) q = Ok (Some ($ "203.0.113.7")).
Proof. split; vm_compute; reflexivity. Qed.
Print Assumptions C85_port_refuted.
(** A colon in the path is taken for that of the port, and the end of the host name for the
    port: another host is asked. *)
Theorem C85_colon_refuted : exists host port p, host <> $ "ip.example.org" /\
  resolve_ip_http (site host port p) (asks ($ "http://ip.example.org/time:8080")) = Ok (Some ($ "203.0.113.7")).
Proof. exists ($ "ip.exampl"), ($ "8080"), (page ($ "203.0.113.7")). split; [discriminate|vm_compute; reflexivity]. Qed.
Print Assumptions C85_colon_refuted.
(** The slash at the end of a URL is not part of the page asked for. *)
Theorem C85_slash_refuted : exists w : web, (forall h p, w h p <> None) /\
  (forall h p a, w h p = Some a -> a (get_page agent0 ($ "ip.example.org") ($ "/me/")) = [page ($ "203.0.113.7")] /\ a (get_page agent0 ($ "ip.example.org") ($ "/me")) = [page ($ "198.51.100.1")]) /\
  resolve_ip_http w (asks ($ "http://ip.example.org/me/")) = Ok (Some ($ "198.51.100.1")).
Proof.
  exists (fun _ _ => Some (fun r => [page (if bseq r (get_page agent0 ($ "ip.example.org") ($ "/me/")) then $ "203.0.113.7" else $ "198.51.100.1")])).
  split; [discriminate|]. split; [|vm_compute; reflexivity]. intros h p a E. injection E as <-. split; vm_compute; reflexivity.
Qed.
Print Assumptions C85_slash_refuted.
(** A long path with a colon behind a short host name: the length of the host name becomes
    negative, and the whole text is stored into its array. *)
Theorem C85_overflow_refuted : forall w, resolve_ip_http w (asks ($ "http://a/" ++ repeat "x"%byte 300 ++ $ ":8080")) = Fault.
Proof. intro w. vm_compute. reflexivity. Qed.
Print Assumptions C85_overflow_refuted.
(** An empty URL: the character before it is read. *)
Theorem C85_empty_refuted : forall w, resolve_ip_http w (asks []) = Fault.
Proof. intro w. vm_compute. reflexivity. Qed.
Print Assumptions C85_empty_refuted.
(** A user agent with a blank is cut into several arguments, which wget takes for more URLs. *)
Theorem C85_agent_refuted : exists argv, resolve_ip_https exe0 (fun a => if forallb (fun p => bseq (fst p) (snd p)) (combine a argv) then $ "203.0.113.7" else []) (with_wget None ($ "Mozilla/5.0 (X11)")) = Ok (Some ($ "203.0.113.7")) /\
  nth 2 argv [] = $ "Mozilla/5.0" /\ nth 3 argv [] = $ "(X11)" /\ length argv = 9%nat.
Proof.
  exists [$ "/usr/bin/wget"; $ "-U"; $ "Mozilla/5.0"; $ "(X11)"; $ "--secure-protocol=auto"; $ "--quiet"; $ "-O"; $ "-"; $ "https://www.cipherdyne.org/cgi-bin/myip"].
  split; [vm_compute; reflexivity|]. repeat split.
Qed.
Print Assumptions C85_agent_refuted.
(** A long URL is cut: wget asks for another page. *)
Theorem C85_long_url_refuted : exists u u', url_ok 5 ($ "ip.example.org") None ("/"%byte :: repeat "x"%byte 1000) /\ u = url_text ($ "https") ($ "ip.example.org") None ("/"%byte :: repeat "x"%byte 1000) /\
  u' <> u /\ resolve_ip_https exe0 (fun a => if bseq (last a []) u' then $ "203.0.113.7" else []) (with_wget (Some u) agent0) = Ok (Some ($ "203.0.113.7")).
Proof.
  exists (url_text ($ "https") ($ "ip.example.org") None ("/"%byte :: repeat "x"%byte 1000)), (ztake 956 (url_text ($ "https") ($ "ip.example.org") None ("/"%byte :: repeat "x"%byte 1000))).
  split; [|split; [reflexivity|split; [|vm_compute; reflexivity]]].
  - constructor; [|exact I|].
    + repeat split; try notin; try discriminate; vm_compute; discriminate.
    + split; [apply (P_bytes.no_nulb_iff); vm_compute; reflexivity|]. split; [|split; [vm_compute; discriminate|right; split; [reflexivity|vm_compute; discriminate]]].
      intro Q. apply memb_In in Q. vm_compute in Q. discriminate Q.
  - intro Q. apply (f_equal zlen) in Q. vm_compute in Q. discriminate Q.
Qed.
Print Assumptions C85_long_url_refuted.
(** The same page is understood in two pieces and not in one, if it has 2000 bytes or more. *)
Theorem C85_long_answer_refuted : exists a b, let p := page ($ "203.0.113.7" ++ repeat " "%byte 2000) in a ++ b = p /\
  answer_names [a; b] ($ "203.0.113.7") /\ forall ip, ~ answer_names [p] ip.
Proof.
  exists (ztake 60 (page ($ "203.0.113.7" ++ repeat " "%byte 2000))), (zdrop 60 (page ($ "203.0.113.7" ++ repeat " "%byte 2000))). cbv zeta.
  split; [apply ztake_zdrop|]. split; [apply http_address_iff; vm_compute; reflexivity|]. intros ip Q. apply http_address_iff in Q. vm_compute in Q. discriminate Q.
Qed.
Print Assumptions C85_long_answer_refuted.
(** The last character of an address of 16 is dropped: the packet asks access for an address
    that nobody named. *)
Theorem C85_cut_refuted : exists q o w, options_ok o /\ w = site ($ "ip.example.org") ($ "80") (page ($ "100.100.100.0255")) /\
  resolve_ip_http w q = Ok (Some ($ "100.100.100.025")) /\ match resolve_and_make toy v0 w None (fun _ => []) q o with Ok (Some _) => true | _ => false end = true.
Proof.
  exists (asks ($ "http://ip.example.org")), (opts [] ($ "tcp/22") [] [] 0 false 60 0 0 pw0 hk0 3). eexists. split; [opts_ok|]. split; [reflexivity|]. split; vm_compute; reflexivity.
Qed.
Print Assumptions C85_cut_refuted.
(** With a command for the server the address is not looked up at all, and no packet is made. *)
Theorem C85_command_refuted : forall H v w exe exec q o h, options_ok o -> world_ok v -> (o_nat_rand o = true -> v_seed v 1%nat = true) -> o_command o <> [] -> o_ip o = [] ->
  resolve_and_make H v w exe exec q o <> Ok (Some h).
Proof. exact command_never. Qed.
Print Assumptions C85_command_refuted.
