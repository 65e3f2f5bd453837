(** Properties C85 to C88 and C91: the command line tool. *)
From Coq Require Import PeanoNat String List NArith ZArith Bool Lia.
From Verif Require P_Path P_Template P_Config P_Api.
From Verif Require Import PyStr PyStrFacts PyBase PyXml ResultModel ContextModel ConfigModel ConfigSpec HttpModel OpcModel OpcSpec OpcFacts FileModel ProgModel ApiModel ApiSpec ApiSuites ApiFacts3
  ArgModel CliModel CliSpec ArgFacts CliFacts.
Import ListNotations.
Local Open Scope nat_scope.
Local Open Scope list_scope.

(** * The three commands *)
Lemma main_file show repr w name args : main show repr w (name :: lit "check_file" :: args) = run_file_test show repr w args.
Proof. reflexivity. Qed.
Lemma main_server show repr w name args : main show repr w (name :: lit "check_server" :: args) = run_api_test show repr w args.
Proof. reflexivity. Qed.
Lemma main_generate show repr w name args : main show repr w (name :: lit "generate_files" :: args) = generate_files w args.
Proof. reflexivity. Qed.
Lemma main_cases show repr w argv :
  (exists name args, argv = name :: lit "check_file" :: args) \/ (exists name args, argv = name :: lit "check_server" :: args) \/
  (exists name args, argv = name :: lit "generate_files" :: args) \/
  (exists l, main show repr w argv = print_exit w [] l 1).
Proof.
  destruct argv as [|name [|c args]]; [right; right; right; eexists; reflexivity..|].
  destruct (str_eqb c (lit "check_file")) eqn:E1; [left; apply str_eqb_spec in E1; subst; eauto|].
  destruct (str_eqb c (lit "check_server")) eqn:E2; [right; left; apply str_eqb_spec in E2; subst; eauto|].
  destruct (str_eqb c (lit "generate_files")) eqn:E3; [right; right; left; apply str_eqb_spec in E3; subst; eauto|].
  right; right; right. unfold main, commands. cbn [lookup]. rewrite E1, E2, E3. eauto.
Qed.
Lemma print_exit_ended w h l n : ended (print_exit w h l n) = Exits n \/ ended (print_exit w h l n) = Dies UnicodeEncodeError.
Proof. unfold print_exit. destruct (print_all (w_prints w) l) as [o [|]]; auto. Qed.

Lemma file_options o d n : In (o, (d, n)) (options file_parser) -> ~ In d (positionals file_parser).
Proof. intros I J. repeat (destruct I as [I|I]; [injection I as <- <- <-; destruct J as [J|[]]; discriminate J|]). destruct I. Qed.
Lemma server_options o d n : In (o, (d, n)) (options server_parser) -> ~ In d (positionals server_parser).
Proof. intros I J. repeat (destruct I as [I|I]; [injection I as <- <- <-; destruct J as [J|[J|[]]]; discriminate J|]). destruct I. Qed.
Lemma generate_options o d n : In (o, (d, n)) (options generate_parser) -> ~ In d (positionals generate_parser).
Proof. intros I J. repeat (destruct I as [I|I]; [injection I as <- <- <-; destruct J as [J|[]]; discriminate J|]). destruct I. Qed.

Lemma convert_file w s : convert w (lit "file") [s] = match w_file w s with Some f => Converted (SFile f) | None => Refused end.
Proof. reflexivity. Qed.
Lemma parsed_file w args ns : parse_args (convert w) file_parser args = Parsed ns -> exists f, lookup (lit "file") ns = Some (SFile f).
Proof.
  intros P. destruct (parsed_positionals _ _ _ _ P file_options) as [A B]; [repeat constructor; intros []|].
  destruct (A (lit "file")) as [v L]; [now left|]. destruct (B _ _ _ eq_refl L) as [s C]. rewrite convert_file in C.
  destruct (w_file w s) as [f|]; [|discriminate]. injection C as <-. eauto.
Qed.
Lemma parsed_server w args ns : parse_args (convert w) server_parser args = Parsed ns ->
  (exists s, lookup (lit "server") ns = Some (SText s)) /\ (exists v, lookup (lit "suite") ns = Some v /\ (v = SNothing \/ exists s, v = SText s)).
Proof.
  intros P. destruct (parsed_positionals _ _ _ _ P server_options) as [A B].
  { constructor; [intros [Q|[]]; discriminate Q|]. constructor; [intros []|constructor]. }
  split.
  - destruct (A (lit "server")) as [v L]; [now left|]. destruct (B _ _ _ eq_refl L) as [s C].
    assert (C' : convert w (lit "server") [s] = Converted (SText s)) by reflexivity. rewrite C in C'. injection C' as ->. eauto.
  - destruct (A (lit "suite")) as [v L]; [right; now left|]. exists v. split; [exact L|].
    destruct (parsed_setting _ _ _ _ _ _ P L) as (ev & a & _ & _ & C).
    destruct a as [|s [|? ?]].
    + assert (C' : convert w (lit "suite") [] = Converted SNothing) by reflexivity. rewrite C in C'. injection C' as ->. now left.
    + assert (C' : convert w (lit "suite") [s] = Converted (SText s)) by reflexivity. rewrite C in C'. injection C' as ->. eauto.
    + assert (C' : convert w (lit "suite") (s :: s0 :: l) = Converted SNothing) by reflexivity. rewrite C in C'. injection C' as ->. now left.
Qed.
Lemma parsed_directory w args ns : parse_args (convert w) generate_parser args = Parsed ns -> exists s, lookup (lit "directory") ns = Some (SText s).
Proof.
  intros P. destruct (parsed_positionals _ _ _ _ P generate_options) as [A B]; [repeat constructor; intros []|].
  destruct (A (lit "directory")) as [v L]; [now left|]. destruct (B _ _ _ eq_refl L) as [s C].
  assert (C' : convert w (lit "directory") [s] = Converted (SText s)) by reflexivity. rewrite C in C'. injection C' as ->. eauto.
Qed.
(** settings of options have the values of their type *)
Lemma format_nargs o n : In (o, (lit "format", n)) (options file_parser) -> n = One.
Proof.
  assert (A : forall x, In x (options file_parser) -> fst (snd x) = lit "format" -> snd (snd x) = One).
  { apply (proj1 (Forall_forall (fun x => fst (snd x) = lit "format" -> snd (snd x) = One) _)). repeat constructor; intros E; try reflexivity; discriminate E. }
  intros I. exact (A _ I eq_refl).
Qed.
Lemma parsed_format w args ns : parse_args (convert w) file_parser args = Parsed ns -> exists f, setting_of ns "format" (SInput Faasx) = SInput f.
Proof.
  intros P. unfold setting_of. destruct (lookup (lit "format") ns) as [v|] eqn:L; [|eauto].
  destruct (parsed_option _ _ _ _ _ _ P L) as (o & n & a & I & F & C); [intros [Q|[]]; discriminate Q|].
  apply format_nargs in I. subst n.
  destruct F as [s ->].
  assert (C' : convert w (lit "format") [s] = match lookup s input_formats with Some f => Converted (SInput f) | None => Refused end) by reflexivity.
  rewrite C in C'. destruct (lookup s input_formats); [injection C' as ->; eauto|discriminate].
Qed.

(** * C85 *)
Theorem C85_exit : forall show repr w argv r h o, Reaches show repr w argv r h o ->
  (Forall (fun s => w_prints w s = true) (report_lines w o r) ->
   main show repr w argv = Outputs (report_lines w o r) h [] (Exits (exit_status r))) /\
  (~ Forall (fun s => w_prints w s = true) (report_lines w o r) -> ended (main show repr w argv) = Dies UnicodeEncodeError).
Proof.
  intros show repr w argv r h o R.
  assert (M : main show repr w argv = report w h o r).
  { destruct R as [name args ns f fmt r P L F C|name args ns s suite r m h P V L S R].
    - rewrite main_file. unfold run_file_test. rewrite P. unfold setting_of at 1. rewrite L, F, C. reflexivity.
    - rewrite main_server. unfold run_api_test. rewrite P. fold (version_of ns). rewrite V. unfold versions. cbn [lookup]. rewrite str_eqb_refl.
      assert (SU : setting_of ns "suite" SNothing = SText s) by (unfold setting_of; now rewrite L).
      rewrite SU, suite_names_eq. apply selects_spec in S. rewrite S.
      unfold check_suite. unfold Returns in R. unfold client_of, config_of in R. unfold new_client. rewrite R. reflexivity. }
  rewrite M. unfold report, print_exit. split; intros F.
  - now rewrite print_all_ok.
  - apply print_all_not in F. destruct (print_all (w_prints w) (report_lines w o r)) as [x b]. cbn [snd] in F. now subst b.
Qed.
Print Assumptions C85_exit.

Lemma run_file_cases show repr w args :
  (exists n, parse_args (convert w) file_parser args = ParserExits n /\ run_file_test show repr w args = ends (Exits n)) \/
  (exists e, parse_args (convert w) file_parser args = ParserDies e /\ run_file_test show repr w args = ends (Dies e)) \/
  (exists ns f fmt, parse_args (convert w) file_parser args = Parsed ns /\ lookup (lit "file") ns = Some (SFile f) /\ setting_of ns "format" (SInput Faasx) = SInput fmt /\
     run_file_test show repr w args =
       match check_file show repr fmt (text_of (setting_of ns "model_type" (SText (lit "Environment")))) f with
       | Val r => report w [] (output_of ns) r
       | Raise e => ends (Dies e)
       end).
Proof.
  unfold run_file_test. destruct (parse_args (convert w) file_parser args) as [ns|n|e] eqn:P; [right; right|left; eauto|right; left; eauto].
  destruct (parsed_file _ _ _ P) as [f L]. destruct (parsed_format _ _ _ P) as [fmt F]. exists ns, f, fmt.
  split; [reflexivity|]. split; [exact L|]. split; [exact F|]. unfold setting_of at 1. rewrite L, F. reflexivity.
Qed.
Lemma run_api_cases show repr w args :
  (exists n, parse_args (convert w) server_parser args = ParserExits n /\ run_api_test show repr w args = ends (Exits n)) \/
  (exists e, parse_args (convert w) server_parser args = ParserDies e /\ run_api_test show repr w args = ends (Dies e)) \/
  (exists ns, parse_args (convert w) server_parser args = Parsed ns /\
     ((version_of ns <> lit "3.0" /\ run_api_test show repr w args = ends (Dies UnboundLocalError)) \/
      (version_of ns = lit "3.0" /\ lookup (lit "suite") ns = Some SNothing /\ run_api_test show repr w args = ends (Dies TypeError)) \/
      exists s, version_of ns = lit "3.0" /\ lookup (lit "suite") ns = Some (SText s) /\
        (((forall suite, ~ Selects s suite) /\ run_api_test show repr w args = ends (Exits 1)) \/
         exists suite, Selects s suite /\ run_api_test show repr w args =
           match run (check_api show repr (client_of ns) (config_of ns suite)) (w_server w) with
           | (Ret (r, _), h) => report w h (output_of ns) r
           | (Abort _, h) => Outputs [] h [] (Dies (OtherException 0))
           | (Exc e _, h) => Outputs [] h [] (Dies e)
           end))).
Proof.
  unfold run_api_test. destruct (parse_args (convert w) server_parser args) as [ns|n|e] eqn:P; [right; right|left; eauto|right; left; eauto].
  exists ns. split; [reflexivity|]. fold (version_of ns). unfold versions. cbn [lookup]. destruct (str_eqb (version_of ns) (lit "3.0")) eqn:V.
  - apply str_eqb_spec in V. right. destruct (parsed_server _ _ _ P) as [_ (v & L & [->|[s ->]])].
    + left. split; [exact V|]. split; [exact L|]. unfold setting_of. rewrite L. reflexivity.
    + assert (SU : setting_of ns "suite" SNothing = SText s) by (unfold setting_of; now rewrite L).
      right. exists s. split; [exact V|]. split; [exact L|]. rewrite SU, suite_names_eq.
      destruct (filter (contains s) ssp_names) as [|suite [|? ?]] eqn:F.
      * left. split; [|reflexivity]. intros suite Q. apply selects_spec in Q. rewrite Q in F. discriminate F.
      * right. exists suite. split; [now apply selects_spec|]. unfold check_suite. rewrite V. reflexivity.
      * left. split; [|reflexivity]. intros suite' Q. apply selects_spec in Q. rewrite Q in F. discriminate F.
  - left. split; [|reflexivity]. intros Q. rewrite Q, str_eqb_refl in V. discriminate.
Qed.
Lemma report_zero w h o r : ended (report w h o r) = Exits 0 -> ok r = true.
Proof. unfold report. destruct (print_exit_ended w h (report_lines w o r) (if ok r then 0 else 1)) as [->| ->]; [|discriminate]. destruct (ok r); [reflexivity|discriminate]. Qed.
Lemma parser_help w name c args p : In (c, p) [(lit "check_file", file_parser); (lit "check_server", server_parser); (lit "generate_files", generate_parser)] ->
  parse_args (convert w) p args = ParserExits 0 -> Asks_help w (name :: c :: args).
Proof.
  intros I P. apply parse_exits in P. destruct P as [(_ & b & r & a & E & F)|]; [|discriminate]. exists name, c, args, p. split; [reflexivity|]. split; [exact I|].
  exists b, a, r. auto.
Qed.

(** Status 0: a verdict that is ok (or only help was asked for) *)
Theorem C85_zero : forall show repr w argv, ended (main show repr w argv) = Exits 0 ->
  Asks_help w argv \/ exists r h o, Reaches show repr w argv r h o /\ ok r = true.
Proof.
  intros show repr w argv E. destruct (main_cases show repr w argv) as [(name & args & ->)|[(name & args & ->)|[(name & args & ->)|(l & M)]]].
  - rewrite main_file in E. destruct (run_file_cases show repr w args) as [(n & P & R)|[(e & P & R)|(ns & f & fmt & P & L & F & R)]]; rewrite R in E.
    + injection E as ->. left. eapply parser_help; [now left|exact P].
    + discriminate E.
    + destruct (check_file _ _ _ _ _) as [r|e] eqn:C; [|discriminate E]. apply report_zero in E. right. exists r, [], (output_of ns). split; [|exact E]. econstructor; eauto.
  - rewrite main_server in E. destruct (run_api_cases show repr w args) as [(n & P & R)|[(e & P & R)|(ns & P & [(V & R)|[(V & L & R)|(s & V & L & [(N & R)|(suite & S & R)])]])]];
      rewrite R in E; try discriminate E.
    + injection E as ->. left. eapply parser_help; [right; now left|exact P].
    + destruct (run (check_api show repr (client_of ns) (config_of ns suite)) (w_server w)) as [[[r m]|a|e t] h] eqn:Q; [|discriminate E|discriminate E].
      apply report_zero in E. right. exists r, h, (output_of ns). split; [|exact E]. eapply Reaches_server; eauto.
  - rewrite main_generate in E. unfold generate_files in E. destruct (parse_args (convert w) generate_parser args) as [ns|n|e] eqn:P.
    + destruct (w_exists w _).
      * destruct (print_exit_ended w [] [lit "Directory '" ++ text_of (setting_of ns "directory" SNothing) ++ lit "' already exists, please remove it"] 1) as [Q|Q];
          rewrite Q in E; discriminate E.
      * destruct (w_mkdir w _); discriminate E.
    + injection E as ->. left. eapply parser_help; [right; right; now left|exact P].
    + discriminate E.
  - rewrite M in E. destruct (print_exit_ended w [] l 1) as [Q|Q]; rewrite Q in E; discriminate E.
Qed.
Print Assumptions C85_zero.

(** The status is 0, 1 or 2 (if the program is not ended by an exception). *)
Theorem C85_statuses : forall show repr w argv n, ended (main show repr w argv) = Exits n -> n = 0 \/ n = 1 \/ n = 2.
Proof.
  intros show repr w argv n E.
  assert (PR : forall h l k, ended (print_exit w h l k) = Exits n -> n = k)
    by (intros h l k Q; destruct (print_exit_ended w h l k) as [W|W]; rewrite W in Q; [injection Q as ->; reflexivity|discriminate Q]).
  assert (RP : forall h o r, ended (report w h o r) = Exits n -> n = 0 \/ n = 1) by (intros h o r Q; apply PR in Q; destruct (ok r); auto).
  assert (PX : forall p args k, parse_args (convert w) p args = ParserExits k -> k = 0 \/ k = 1 \/ k = 2)
    by (intros p args k P; apply parse_exits in P; destruct P as [[-> _]| ->]; auto).
  destruct (main_cases show repr w argv) as [(name & args & ->)|[(name & args & ->)|[(name & args & ->)|(l & M)]]].
  - rewrite main_file in E. destruct (run_file_cases show repr w args) as [(k & P & R)|[(e & P & R)|(ns & f & fmt & P & L & F & R)]]; rewrite R in E.
    + injection E as <-. eauto.
    + discriminate E.
    + destruct (check_file _ _ _ _ _); [|discriminate E]. apply RP in E. tauto.
  - rewrite main_server in E. destruct (run_api_cases show repr w args) as [(k & P & R)|[(e & P & R)|(ns & P & [(V & R)|[(V & L & R)|(s & V & L & [(N & R)|(suite & S & R)])]])]];
      rewrite R in E; try discriminate E.
    + injection E as <-. eauto.
    + injection E as <-. auto.
    + destruct (run _ _) as [[[r m]|a|e t] h]; [|discriminate E|discriminate E]. apply RP in E. tauto.
  - rewrite main_generate in E. unfold generate_files in E. destruct (parse_args (convert w) generate_parser args) as [ns|k|e] eqn:P.
    + destruct (w_exists w _); [apply PR in E; auto|]. destruct (w_mkdir w _); discriminate E.
    + injection E as <-. eauto.
    + discriminate E.
  - rewrite M in E. apply PR in E. auto.
Qed.
Print Assumptions C85_statuses.

(** The reports in JSON consist of ASCII characters without control characters, whatever the messages are. *)
Definition graphic (c : N) : Prop := (32 <= c <= 126)%N.
Lemma lit_graphic (s : string) : forallb (fun c => N.leb 32 c && N.leb c 126)%N (lit s) = true -> Forall graphic (lit s).
Proof.
  intros H. apply Forall_forall. intros c I. rewrite forallb_forall in H. specialize (H c I). apply andb_true_iff in H. destruct H as [A B].
  apply N.leb_le in A, B. split; assumption.
Qed.
Lemma hex_digit_graphic n : (n < 16)%N -> graphic (hex_digit n).
Proof. intros L. unfold hex_digit, graphic. destruct (N.ltb_spec n 10); lia. Qed.
Lemma hex4_graphic n : Forall graphic (hex4 n).
Proof. unfold hex4. repeat (apply Forall_cons; [apply hex_digit_graphic; apply N.mod_lt; discriminate|]). apply Forall_nil. Qed.
Lemma json_char_graphic c : Forall graphic (json_char c).
Proof.
  assert (TWO : forall a b, graphic a -> graphic b -> Forall graphic [a; b]) by (intros; apply Forall_cons; [assumption|]; apply Forall_cons; [assumption|apply Forall_nil]).
  unfold json_char. repeat (match goal with |- context [if N.eqb c ?k then _ else _] => destruct (N.eqb c k); [apply TWO; unfold graphic; lia|] end).
  destruct (N.leb 32 c && N.leb c 126)%N eqn:E.
  { apply andb_true_iff in E. destruct E as [A B]. apply N.leb_le in A, B. constructor; [split; assumption|constructor]. }
  assert (U : forall n, Forall graphic (92 :: 117 :: hex4 n)%N) by (intros n; constructor; [unfold graphic; lia|]; constructor; [unfold graphic; lia|]; apply hex4_graphic).
  destruct (N.ltb c 65536); [apply U|]. apply Forall_app. split; apply U.
Qed.
Lemma json_text_graphic s : Forall graphic (json_text s).
Proof.
  unfold json_text. apply Forall_app. split; [constructor; [unfold graphic; lia|constructor]|]. apply Forall_app. split; [|constructor; [unfold graphic; lia|constructor]].
  induction s as [|c s IH]; [constructor|]. cbn [flat_map]. apply Forall_app. split; [apply json_char_graphic|exact IH].
Qed.
Lemma join_graphic sep l : Forall graphic sep -> Forall (Forall graphic) l -> Forall graphic (join sep l).
Proof.
  intros S F. induction F as [|x l H F IH]; [constructor|]. destruct l as [|y l]; [exact H|].
  change (join sep (x :: y :: l)) with (x ++ sep ++ join sep (y :: l)). apply Forall_app. split; [exact H|]. apply Forall_app. auto.
Qed.
Theorem C85_json_prints : forall r, Forall graphic (json_dumps (to_dict r)).
Proof.
  induction r as [m l s IH] using result_ind'. cbn [to_dict json_dumps List.map fst snd].
  assert (LG : forall t : string, forallb (fun c => N.leb 32 c && N.leb c 126)%N (lit t) = true -> Forall graphic (lit t)) by (intros t H; now apply lit_graphic).
  apply Forall_app. split; [now apply LG|]. apply Forall_app. split; [|now apply LG]. apply join_graphic; [now apply LG|].
  constructor; [apply Forall_app; split; [apply json_text_graphic|]; apply Forall_app; split; [now apply LG|apply json_text_graphic]|].
  constructor.
  { apply Forall_app; split; [apply json_text_graphic|]; apply Forall_app; split; [now apply LG|].
    destruct l; vm_compute; repeat constructor; discriminate. }
  constructor; [|constructor]. apply Forall_app; split; [apply json_text_graphic|]; apply Forall_app; split; [now apply LG|].
  apply Forall_app. split; [now apply LG|]. apply Forall_app. split; [|now apply LG]. apply join_graphic; [now apply LG|].
  rewrite map_map. apply Forall_forall. intros x I. apply in_map_iff in I. destruct I as (r & <- & I). rewrite Forall_forall in IH. now apply IH.
Qed.
Print Assumptions C85_json_prints.
(** With [--output json] the status is that of the verdict on every terminal that can print such texts. *)
Theorem C85_json : forall show repr w argv r h, (forall s, Forall graphic s -> w_prints w s = true) -> Reaches show repr w argv r h Ojson ->
  main show repr w argv = Outputs [json_dumps (to_dict r)] h [] (Exits (exit_status r)).
Proof.
  intros show repr w argv r h W R. apply (C85_exit _ _ _ _ _ _ _ R). cbn [report_lines]. constructor; [|constructor]. apply W, C85_json_prints.
Qed.
Print Assumptions C85_json.

(** * C91.  The arguments are read as documented. *)
Definition parsers : list parser := [file_parser; server_parser; generate_parser].
Lemma command_parse w p argv ev : In p parsers -> Command p argv ev -> parse_args (convert w) p argv = take_actions (convert w) ev [].
Proof.
  intros I C. unfold parse_args. rewrite (command_read p) with (ev := ev); [|repeat (destruct I as [<-|I]; [reflexivity|]); destruct I|exact C].
  destruct (take_actions (convert w) ev []); reflexivity.
Qed.
Lemma lookup_last {V} d (v : V) vs before after ns0 : vs = before ++ (d, v) :: after -> ~ In d (List.map fst after) -> lookup d (rev vs ++ ns0) = Some v.
Proof.
  intros -> N. rewrite rev_app_distr. cbn [rev]. rewrite <- !app_assoc. cbn [app].
  assert (N' : ~ In d (List.map fst (rev after))) by (rewrite map_rev; intros I; apply in_rev in I; auto).
  revert N'. generalize (rev after). intros l. induction l as [|[k x] l IH]; cbn [app lookup List.map fst]; intros N'; [now rewrite str_eqb_refl|].
  destruct (str_eqb d k) eqn:E; [apply str_eqb_spec in E; subst; destruct N'; now left|]. apply IH. intros I. apply N'. now right.
Qed.
Lemma take_all {V} (conv : str -> list str -> converted V) : forall ev ns0, Forall (fun e => fst e <> help /\ exists v, conv (fst e) (snd e) = Converted v) ev ->
  exists ns, take_actions conv ev ns0 = Parsed ns.
Proof.
  induction ev as [|[d a] ev IH]; intros ns0 F; [eexists; reflexivity|]. inversion F as [|? ? [H [v C]] F']; subst. cbn [fst snd] in *. cbn [take_actions].
  destruct (str_eqb d help) eqn:E; [apply str_eqb_spec in E; contradiction|]. rewrite C. apply IH. exact F'.
Qed.
(** every setting gets the value of its last occurrence *)
Theorem C91_settings : forall w p argv ev, In p parsers -> Command p argv ev ->
  Forall (fun e => fst e <> help /\ exists v, convert w (fst e) (snd e) = Converted v) ev ->
  exists ns, parse_args (convert w) p argv = Parsed ns /\
    (forall before d a after v, ev = before ++ (d, a) :: after -> ~ In d (List.map fst after) -> convert w d a = Converted v -> lookup d ns = Some v) /\
    (forall d, ~ In d (List.map fst ev) -> lookup d ns = None).
Proof.
  intros w p argv ev I C F. rewrite (command_parse w p argv ev I C). destruct (take_all (convert w) ev [] F) as [ns T]. exists ns. split; [exact T|].
  apply take_actions_parsed in T. destruct T as (vs & -> & F2). split.
  - intros before d a after v -> N Cv. apply Forall2_app_inv_l in F2. destruct F2 as (vb & vr & _ & F2 & ->).
    inversion F2 as [|? [k x] ? va [Q1 [_ Q2]] F3]; subst. cbn [fst snd] in *. subst k. rewrite Cv in Q2. injection Q2 as <-.
    apply (lookup_last d v _ vb va); [reflexivity|]. assert (Q : List.map fst va = List.map fst after).
    { clear - F3. induction F3 as [|e y l l' [A _] F3 IH]; [reflexivity|]. cbn [List.map]. now f_equal. }
    now rewrite Q.
  - intros d N. rewrite app_nil_r. apply lookup_missing. rewrite map_rev. intros J. apply in_rev in J. apply N.
    assert (Q : List.map fst vs = List.map fst ev).
    { clear - F2. induction F2 as [|e y l l' [A _] F2 IH]; [reflexivity|]. cbn [List.map]. now f_equal. }
    now rewrite <- Q.
Qed.
Print Assumptions C91_settings.
(** The first value that is not readable ends the program with status 2, before anything is done; a request for help
    before it with status 0. *)
Theorem C91_rejected : forall show repr w name c p args before d a after, 
  In (c, p) [(lit "check_file", file_parser); (lit "check_server", server_parser); (lit "generate_files", generate_parser)] ->
  Command p args (before ++ (d, a) :: after) -> Forall (fun e => fst e <> help /\ exists v, convert w (fst e) (snd e) = Converted v) before ->
  (d <> help -> convert w d a = Refused -> main show repr w (name :: c :: args) = Outputs [] [] [] (Exits 2)) /\
  (d = help -> main show repr w (name :: c :: args) = Outputs [] [] [] (Exits 0)).
Proof.
  intros show repr w name c p args before d a after I C F.
  assert (Ip : In p parsers) by (repeat (destruct I as [I|I]; [injection I as <- <-; unfold parsers; cbn [In]; tauto|]); destruct I).
  assert (MM : forall n, parse_args (convert w) p args = ParserExits n -> main show repr w (name :: c :: args) = ends (Exits n)).
  { intros n P. destruct I as [I|[I|[I|[]]]]; injection I as <- <-; [rewrite main_file; unfold run_file_test|rewrite main_server; unfold run_api_test|
      rewrite main_generate; unfold generate_files]; now rewrite P. }
  assert (TT : forall n ns0, (d = help /\ n = 0) \/ (d <> help /\ convert w d a = Refused /\ n = 2) ->
                take_actions (convert w) (before ++ (d, a) :: after) ns0 = ParserExits n).
  { clear C. intros n. induction F as [|[d' a'] b [H [v Cv]] F IH]; intros ns0 K; cbn [app take_actions].
    - destruct (str_eqb d help) eqn:E.
      + apply str_eqb_spec in E. destruct K as [[_ ->]|[K _]]; [reflexivity|contradiction].
      + destruct K as [[-> _]|[_ [K ->]]]; [now rewrite str_eqb_refl in E|]. now rewrite K.
    - cbn [fst snd] in *. destruct (str_eqb d' help) eqn:E; [apply str_eqb_spec in E; contradiction|]. rewrite Cv. now apply IH. }
  split.
  - intros H R. apply MM. rewrite (command_parse w p args _ Ip C). apply TT. auto.
  - intros H. apply MM. rewrite (command_parse w p args _ Ip C). apply TT. auto.
Qed.
Print Assumptions C91_rejected.
(** reading always comes to an end *)
Theorem C91_ends : forall p argv, snd (scan_args p argv) <> OutOfSteps.
Proof. exact scan_args_ends. Qed.
Print Assumptions C91_ends.
Example C91_ex : Command server_parser [lit "--dry"; lit "http://x"; lit "--output=html"; lit "SSP-001"; lit "--header"; lit "a: b"; lit "c:d"; lit "--output"; lit "json"]
  [(lit "dry", []); (lit "server", [lit "http://x"]); (lit "output", [lit "html"]); (lit "suite", [lit "SSP-001"]); (lit "header", [lit "a: b"; lit "c:d"]);
   (lit "output", [lit "json"])].
Proof.
  exists [Flag (lit "--dry"); Plain (lit "http://x"); Joined (lit "--output") (lit "html"); Plain (lit "SSP-001"); Several (lit "--header") [lit "a: b"; lit "c:d"];
          Given (lit "--output") (lit "json")].
  split; [reflexivity|].
  assert (PL : forall (s : string) c r, lit s = c :: r -> c <> 45%N -> plain (lit s)) by (intros s c r E N q Q; rewrite E in Q; injection Q as -> _; destruct N; reflexivity).
  apply M_flag; [cbn; tauto|]. apply M_plain; [eapply PL; [reflexivity|discriminate]|]. eapply M_joined with (n := One); [cbn; tauto|discriminate|].
  apply M_plain; [eapply PL; [reflexivity|discriminate]|]. apply M_several; [cbn; tauto|discriminate| |reflexivity|].
  - constructor; [eapply PL; [reflexivity|discriminate]|]. constructor; [eapply PL; [reflexivity|discriminate]|constructor].
  - apply M_given; [cbn; tauto|eapply PL; [reflexivity|discriminate]|]. constructor.
Qed.

(** * C86 *)
Lemma run_api_selected show repr w args ns s suite : parse_args (convert w) server_parser args = Parsed ns -> version_of ns = lit "3.0" ->
  lookup (lit "suite") ns = Some (SText s) -> Selects s suite ->
  run_api_test show repr w args =
    match run (check_api show repr (client_of ns) (config_of ns suite)) (w_server w) with
    | (Ret (r, _), h) => report w h (output_of ns) r
    | (Abort _, h) => Outputs [] h [] (Dies (OtherException 0))
    | (Exc e _, h) => Outputs [] h [] (Dies e)
    end.
Proof.
  intros P V L S. unfold run_api_test. rewrite P. fold (version_of ns). rewrite V. unfold versions. cbn [lookup]. rewrite str_eqb_refl.
  assert (SU : setting_of ns "suite" SNothing = SText s) by (unfold setting_of; now rewrite L).
  rewrite SU, suite_names_eq. apply selects_spec in S. rewrite S. reflexivity.
Qed.
Lemma report_requests w h o r : requests (report w h o r) = h.
Proof. unfold report, print_exit. destruct (print_all _ _). reflexivity. Qed.
(** A text that occurs in exactly one name selects this suite: the program sends exactly the requests of its check.  For
    any other text the program ends with status 1, without output and requests. *)
Theorem C86_selection : forall show repr w name args ns s, parse_args (convert w) server_parser args = Parsed ns -> version_of ns = lit "3.0" ->
  lookup (lit "suite") ns = Some (SText s) ->
  (forall suite, Selects s suite ->
     requests (main show repr w (name :: lit "check_server" :: args)) = snd (run (check_api show repr (client_of ns) (config_of ns suite)) (w_server w))) /\
  ((forall suite, ~ Selects s suite) -> main show repr w (name :: lit "check_server" :: args) = Outputs [] [] [] (Exits 1)).
Proof.
  intros show repr w name args ns s P V L. rewrite main_server. split.
  - intros suite S. rewrite (run_api_selected _ _ _ _ _ _ _ P V L S). destruct (run _ _) as [[[r m]|a|e t] h]; [apply report_requests|reflexivity|reflexivity].
  - intros N. destruct (run_api_cases show repr w args) as [(k & P' & R)|[(e & P' & R)|(ns' & P' & [(V' & R)|[(V' & L' & R)|(s' & V' & L' & [(N' & R)|(suite & S & R)])]])]];
      rewrite P in P'; try discriminate P'; injection P' as <-.
    + contradiction.
    + rewrite L in L'. discriminate L'.
    + exact R.
    + rewrite L in L'. injection L' as <-. destruct (N _ S).
Qed.
Print Assumptions C86_selection.
(** Whenever a request is sent, a suite has been selected. *)
Theorem C86_requests : forall show repr w argv, requests (main show repr w argv) <> [] ->
  exists name args ns s suite, argv = name :: lit "check_server" :: args /\ parse_args (convert w) server_parser args = Parsed ns /\
    version_of ns = lit "3.0" /\ lookup (lit "suite") ns = Some (SText s) /\ Selects s suite.
Proof.
  intros show repr w argv E.
  assert (PR : forall l n, requests (print_exit w [] l n) = []) by (intros l n; unfold print_exit; destruct (print_all _ _); reflexivity).
  destruct (main_cases show repr w argv) as [(name & args & ->)|[(name & args & ->)|[(name & args & ->)|(l & M)]]].
  - rewrite main_file in E. destruct E. destruct (run_file_cases show repr w args) as [(k & P & R)|[(e & P & R)|(ns & f & fmt & P & L & F & R)]]; rewrite R; try reflexivity.
    destruct (check_file _ _ _ _ _); [apply report_requests|reflexivity].
  - rewrite main_server in E. destruct (run_api_cases show repr w args) as [(k & P & R)|[(e & P & R)|(ns & P & [(V & R)|[(V & L & R)|(s & V & L & [(N & R)|(suite & S & R)])]])]];
      rewrite R in E; try (destruct E; reflexivity).
    exists name, args, ns, s, suite. auto.
  - rewrite main_generate in E. destruct E. unfold generate_files. destruct (parse_args (convert w) generate_parser args) as [ns|k|e]; [|reflexivity|reflexivity].
    destruct (w_exists w _); [apply PR|]. destruct (w_mkdir w _); reflexivity.
  - rewrite M in E. destruct E. apply PR.
Qed.
Print Assumptions C86_requests.
(** Every complete name selects its suite. *)
Theorem C86_names : forall suite, In suite ssp_names -> Selects suite suite.
Proof.
  intros suite I. apply selects_spec. revert suite I. apply (proj1 (Forall_forall (fun suite => filter (contains suite) ssp_names = [suite]) _)).
  vm_compute. repeat constructor.
Qed.
Print Assumptions C86_names.
Example C86_ex : Selects (lit "SubmodelServiceSpecification/SSP-002") (lit "https://admin-shell.io/aas/API/3/0/SubmodelServiceSpecification/SSP-002") /\
  (forall suite, ~ Selects (lit "SSP-002") suite) /\ (forall suite, ~ Selects [] suite) /\ (forall suite, ~ Selects (lit "ssp-001") suite).
Proof.
  split; [apply selects_spec; vm_compute; reflexivity|].
  assert (NO : forall s : str, length (filter (contains s) ssp_names) <> 1 -> forall suite, ~ Selects s suite)
    by (intros s N suite S; apply selects_spec in S; rewrite S in N; destruct N; reflexivity).
  split; [apply NO; vm_compute; discriminate|]. split; apply NO; vm_compute; discriminate.
Qed.

(** * C87 *)
Theorem C87_header : forall s,
  (forall k v, s = k ++ 58%N :: v -> ~ In 58%N k -> exists k' v', Stripped k k' /\ Stripped v v' /\ parse_header_value s = Val (k', v')) /\
  (~ In 58%N s -> parse_header_value s = Raise ArgumentTypeError).
Proof.
  assert (ST : forall s, Stripped s (strip s)) by (intros s; exact (OpcFacts.trimmed_strip s)).
  intros s. unfold parse_header_value. split.
  - intros k v E N. rewrite (proj2 (split_first_spec 58 s k v)); [|auto]. exists (strip k), (strip v). auto.
  - intros N. apply split_first_none in N. now rewrite N.
Qed.
Print Assumptions C87_header.
(** removing the blanks has one result *)
Theorem C87_stripped : forall s t u, Stripped s t -> Stripped s u -> t = u.
Proof. intros s t u H K. exact (OpcFacts.trimmed_fun s t u H K). Qed.
Print Assumptions C87_stripped.
(** The values of the option: all of them have to be headers. *)
Theorem C87_option : forall w vs,
  (forall hs, Forall2 (fun v h => parse_header_value v = Val h) vs hs -> convert w (lit "header") vs = Converted (SHeaders hs)) /\
  ((exists v, In v vs /\ ~ In 58%N v) -> convert w (lit "header") vs = Refused).
Proof.
  intros w vs. assert (CV : convert w (lit "header") vs = conversion SHeaders (map_outcome parse_header_value vs)) by reflexivity. rewrite CV. clear CV. split.
  - intros hs F. assert (E : map_outcome parse_header_value vs = Val hs); [|now rewrite E].
    induction F as [|v h vs hs E F IH]; [reflexivity|]. cbn [map_outcome]. rewrite E. cbn [obind]. now rewrite IH.
  - intros (v & I & N). assert (E : map_outcome parse_header_value vs = Raise ArgumentTypeError); [|now rewrite E].
    induction vs as [|x vs IH]; [destruct I|]. cbn [map_outcome]. unfold parse_header_value at 1. destruct (split_first 58 x) as [[k y]|] eqn:S; [|reflexivity].
    cbn [obind]. destruct I as [<-|I]; [|now rewrite (IH I)]. apply split_first_spec in S. destruct S as [-> _]. destruct N. apply in_or_app. right. now left.
Qed.
Print Assumptions C87_option.
(** the headers the requests get: the last value of every name *)
Lemma dict_set_lookup k v : forall l k', lookup k' (dict_set k v l) = if str_eqb k' k then Some v else lookup k' l.
Proof.
  induction l as [|[a b] l IH]; intros k'; cbn [dict_set lookup]; [reflexivity|].
  destruct (str_eqb k a) eqn:E; cbn [lookup].
  - apply str_eqb_spec in E. subst a. now destruct (str_eqb k' k).
  - rewrite IH. destruct (str_eqb k' a) eqn:F; [|reflexivity]. destruct (str_eqb k' k) eqn:G; [|reflexivity].
    apply str_eqb_spec in F, G. subst. now rewrite str_eqb_refl in E.
Qed.
Theorem C87_dict : forall hs k v, lookup k (dict_of hs) = Some v <-> exists before after, hs = before ++ (k, v) :: after /\ ~ In k (List.map fst after).
Proof.
  intros hs k v. unfold dict_of. rewrite <- fold_left_rev_right.
  assert (E : forall l, lookup k (fold_right (fun kv d => dict_set (fst kv) (snd kv) d) [] l) = lookup k l).
  { induction l as [|[a b] l IH]; [reflexivity|]. cbn [fold_right fst snd lookup]. rewrite dict_set_lookup, IH. reflexivity. }
  rewrite E. clear E. split.
  - intros L. assert (exists a b, rev hs = a ++ (k, v) :: b /\ ~ In k (List.map fst a)) as (a & b & Q & N).
    { revert L. generalize (rev hs). induction l as [|[x y] l IH]; [discriminate|]. cbn [lookup]. destruct (str_eqb k x) eqn:E.
      - apply str_eqb_spec in E. subst x. intros [= ->]. exists [], l. split; [reflexivity|intros []].
      - intros L. destruct (IH L) as (a & b & -> & N). exists ((x, y) :: a), b. split; [reflexivity|]. cbn [List.map fst]. intros [J|J]; [|auto].
        subst x. now rewrite str_eqb_refl in E. }
    exists (rev b), (rev a). split.
    + apply (f_equal (@rev _)) in Q. rewrite rev_involutive in Q. rewrite Q, rev_app_distr. cbn [rev]. now rewrite <- app_assoc.
    + rewrite map_rev. intros J. apply in_rev in J. auto.
  - intros (b & a & -> & N). pose proof (lookup_last k v (b ++ (k, v) :: a) b a [] eq_refl N) as L. now rewrite app_nil_r in L.
Qed.
Print Assumptions C87_dict.
Example C87_ex : parse_header_value (lit "  Authorization : Basic a:b ") = Val (lit "Authorization", lit "Basic a:b") /\
  parse_header_value (lit "Authorization") = Raise ArgumentTypeError.
Proof. split; vm_compute; reflexivity. Qed.

(** * C88 *)
(** The commands as documented, in any world.
    - generate_files makes the directory and then always raises;
    - check_file for an AASX file with another model type (README.md), or without a known one for JSON;
    - check_server with another version, or a filter with two tildes. *)
Lemma submodel_json show repr : check_file show repr Fjson (lit "Submodel") (File (PBad []) (OpcModel.Content (PBad []) (POk (P_Path.submodel_doc [P_Template.extra])))) = Raise AttributeError.
Proof.
  destruct P_Template.C33_refuted as [H _]. destruct (H show repr) as (_ & _ & V). unfold check_file, check_json_file, check_json_data, json_report. cbn [f_content as_json].
  unfold P_Template.verdict_of in V. destruct (TemplateModel.json_to_obj repr TemplateModel.templates show (P_Path.submodel_doc [P_Template.extra]) (lit "Submodel")) as [[r x]|e]; [discriminate|].
  injection V as ->. reflexivity.
Qed.
Lemma plain_lit (s : string) c r : lit s = c :: r -> c <> 45%N -> plain (lit s).
Proof. intros E N q Q. rewrite E in Q. injection Q as -> _. destruct N. reflexivity. Qed.
Ltac is_plain := eapply plain_lit; [reflexivity|discriminate].
Theorem C88_refuted : forall show repr w name,
  (forall d, plain d -> w_exists w d = false -> w_mkdir w d = None ->
     main show repr w [name; lit "generate_files"; d] = Outputs [] [] [d] (Dies AttributeError)) /\
  (forall f, w_file w (lit "submodel.aasx") = Some f ->
     main show repr w [name; lit "check_file"; lit "submodel.aasx"; lit "--model_type"; lit "Submodel"] = Outputs [] [] [] (Dies GenericException)) /\
  (w_file w (lit "submodel.json") = Some (File (PBad []) (OpcModel.Content (PBad []) (POk (P_Path.submodel_doc [P_Template.extra])))) ->
     main show repr w [name; lit "check_file"; lit "submodel.json"; lit "--format"; lit "json"; lit "--model_type"; lit "Submodel"] = Outputs [] [] [] (Dies AttributeError)) /\
  (forall server suite v, plain server -> plain suite -> plain v -> v <> lit "3.0" ->
     main show repr w [name; lit "check_server"; server; suite; lit "--version"; v] = Outputs [] [] [] (Dies UnboundLocalError)) /\
  (forall server suite a b c, plain server -> plain suite -> plain (a ++ 126%N :: b ++ 126%N :: c) ->
     main show repr w [name; lit "check_server"; server; suite; lit "--filter"; a ++ 126%N :: b ++ 126%N :: c] = Outputs [] [] [] (Dies InvalidFilterException)).
Proof.
  intros show repr w name. split; [|split; [|split; [|split]]].
  - intros d Pd X M. rewrite main_generate. unfold generate_files.
    assert (C : Command generate_parser [d] [(lit "directory", [d])]) by (exists [Plain d]; split; [reflexivity|]; apply M_plain; [exact Pd|constructor]).
    rewrite (command_parse w generate_parser _ _ (or_intror (or_intror (or_introl eq_refl))) C).
    change (take_actions (convert w) [(lit "directory", [d])] []) with (Parsed [(lit "directory", SText d)]).
    cbv iota beta zeta.     change (text_of (setting_of [(lit "directory", SText d)] "directory" SNothing)) with d. now rewrite X, M.
  - intros f Wf. rewrite main_file. unfold run_file_test.
    assert (C : Command file_parser [lit "submodel.aasx"; lit "--model_type"; lit "Submodel"] [(lit "file", [lit "submodel.aasx"]); (lit "model_type", [lit "Submodel"])]).
    { exists [Plain (lit "submodel.aasx"); Given (lit "--model_type") (lit "Submodel")]. split; [reflexivity|]. apply M_plain; [is_plain|].
      apply M_given; [cbn; tauto|is_plain|]. constructor. }
    rewrite (command_parse w file_parser _ _ (or_introl eq_refl) C).
    assert (T : take_actions (convert w) [(lit "file", [lit "submodel.aasx"]); (lit "model_type", [lit "Submodel"])] [] =
                Parsed [(lit "model_type", SText (lit "Submodel")); (lit "file", SFile f)]).
    { cbn [take_actions]. change (str_eqb (lit "file") help) with false. cbn iota. rewrite convert_file, Wf. reflexivity. }
    rewrite T. reflexivity.
  - intros Wf. rewrite main_file. unfold run_file_test.
    assert (C : Command file_parser [lit "submodel.json"; lit "--format"; lit "json"; lit "--model_type"; lit "Submodel"]
                  [(lit "file", [lit "submodel.json"]); (lit "format", [lit "json"]); (lit "model_type", [lit "Submodel"])]).
    { exists [Plain (lit "submodel.json"); Given (lit "--format") (lit "json"); Given (lit "--model_type") (lit "Submodel")]. split; [reflexivity|]. apply M_plain; [is_plain|].
      apply M_given; [cbn; tauto|is_plain|]. apply M_given; [cbn; tauto|is_plain|]. constructor. }
    rewrite (command_parse w file_parser _ _ (or_introl eq_refl) C).
    assert (T : take_actions (convert w) [(lit "file", [lit "submodel.json"]); (lit "format", [lit "json"]); (lit "model_type", [lit "Submodel"])] [] =
                Parsed [(lit "model_type", SText (lit "Submodel")); (lit "format", SInput Fjson);
                        (lit "file", SFile (File (PBad []) (OpcModel.Content (PBad []) (POk (P_Path.submodel_doc [P_Template.extra])))))]).
    { cbn [take_actions]. change (str_eqb (lit "file") help) with false. cbn iota. rewrite convert_file, Wf. reflexivity. }
    rewrite T. set (f := File _ _).
    change (match check_file show repr Fjson (lit "Submodel") f with Val r => report w [] Otext r | Raise e => ends (Dies e) end = Outputs [] [] [] (Dies AttributeError)).
    unfold f. now rewrite submodel_json.
  - intros server suite v P1 P2 P3 N. rewrite main_server. unfold run_api_test.
    assert (C : Command server_parser [server; suite; lit "--version"; v] [(lit "server", [server]); (lit "suite", [suite]); (lit "version", [v])]).
    { exists [Plain server; Plain suite; Given (lit "--version") v]. split; [reflexivity|]. apply M_plain; [exact P1|]. apply M_plain; [exact P2|].
      apply M_given; [cbn; tauto|exact P3|]. constructor. }
    rewrite (command_parse w server_parser _ _ (or_intror (or_introl eq_refl)) C).
    change (take_actions (convert w) [(lit "server", [server]); (lit "suite", [suite]); (lit "version", [v])] []) with
      (Parsed [(lit "version", SText v); (lit "suite", SText suite); (lit "server", SText server)]).
    cbv iota beta zeta. change (text_of (setting_of [(lit "version", SText v); (lit "suite", SText suite); (lit "server", SText server)] "version" (SText (lit "3.0")))) with v.
    unfold versions. cbn [lookup]. destruct (str_eqb v (lit "3.0")) eqn:E; [apply str_eqb_spec in E; contradiction|reflexivity].
  - intros server suite a b c P1 P2 P3. rewrite main_server. unfold run_api_test. set (x := a ++ 126%N :: b ++ 126%N :: c) in *.
    assert (C : Command server_parser [server; suite; lit "--filter"; x] [(lit "server", [server]); (lit "suite", [suite]); (lit "filter", [x])]).
    { exists [Plain server; Plain suite; Given (lit "--filter") x]. split; [reflexivity|]. apply M_plain; [exact P1|]. apply M_plain; [exact P2|].
      apply M_given; [cbn; tauto|exact P3|]. constructor. }
    rewrite (command_parse w server_parser _ _ (or_intror (or_introl eq_refl)) C).
    assert (F : new_filter x = Raise InvalidFilterException) by (apply (P_Config.C12_filter_syntax x); now exists a, b, c).
    assert (CF : convert w (lit "filter") [x] = conversion SFilter (new_filter x)) by reflexivity. rewrite F in CF.
    cbn [take_actions]. change (str_eqb (lit "server") help) with false. change (str_eqb (lit "suite") help) with false. change (str_eqb (lit "filter") help) with false.
    cbn iota. change (convert w (lit "server") [server]) with (Converted (SText server)). change (convert w (lit "suite") [suite]) with (Converted (SText suite)).
    rewrite CF. reflexivity.
Qed.
Print Assumptions C88_refuted.

(** The program ends with an exception only for one of these causes: a report or message that the terminal cannot print, a
    filter with two tildes, an exception of the check of the file, an unknown version, a missing suite (the arguments
    "--" twice), an exception during the check of the server, or in generate_files. *)
Inductive Cause (show : json -> str) (repr : str -> str) (w : world) : list str -> exn -> Prop :=
| Cause_print argv s : w_prints w s = false -> Cause show repr w argv UnicodeEncodeError
| Cause_filter name args a b c : In (lit "filter", [a ++ 126%N :: b ++ 126%N :: c]) (fst (scan_args server_parser args)) ->
    Cause show repr w (name :: lit "check_server" :: args) InvalidFilterException
| Cause_model_type name args ns : parse_args (convert w) file_parser args = Parsed ns -> setting_of ns "format" (SInput Faasx) = SInput Faasx ->
    text_of (setting_of ns "model_type" (SText (lit "Environment"))) <> lit "Environment" ->
    Cause show repr w (name :: lit "check_file" :: args) GenericException
| Cause_aasx name args ns f e : parse_args (convert w) file_parser args = Parsed ns -> setting_of ns "format" (SInput Faasx) = SInput Faasx ->
    lookup (lit "file") ns = Some (SFile f) -> check_aasx_file (json_report show repr) (xml_report repr) (f_zip f) = Raise e ->
    Cause show repr w (name :: lit "check_file" :: args) e
| Cause_json name args ns f e : parse_args (convert w) file_parser args = Parsed ns -> setting_of ns "format" (SInput Faasx) = SInput Fjson ->
    lookup (lit "file") ns = Some (SFile f) ->
    check_json_file (json_report show repr) (as_json (f_content f)) (text_of (setting_of ns "model_type" (SText (lit "Environment")))) = Raise e ->
    Cause show repr w (name :: lit "check_file" :: args) e
| Cause_xml name args ns f e : parse_args (convert w) file_parser args = Parsed ns -> setting_of ns "format" (SInput Faasx) = SInput Fxml ->
    lookup (lit "file") ns = Some (SFile f) -> check_xml_file (xml_report repr) (as_xml (f_content f)) (lit "Environment") = Raise e ->
    Cause show repr w (name :: lit "check_file" :: args) e
| Cause_version name args ns : parse_args (convert w) server_parser args = Parsed ns -> version_of ns <> lit "3.0" ->
    Cause show repr w (name :: lit "check_server" :: args) UnboundLocalError
| Cause_suite name args ns : parse_args (convert w) server_parser args = Parsed ns -> lookup (lit "suite") ns = Some SNothing ->
    Cause show repr w (name :: lit "check_server" :: args) TypeError
| Cause_server name args ns s suite e t h : parse_args (convert w) server_parser args = Parsed ns -> lookup (lit "suite") ns = Some (SText s) -> Selects s suite ->
    run (check_api show repr (client_of ns) (config_of ns suite)) (w_server w) = (Exc e t, h) ->
    Cause show repr w (name :: lit "check_server" :: args) e
| Cause_mkdir name args ns d e : parse_args (convert w) generate_parser args = Parsed ns -> lookup (lit "directory") ns = Some (SText d) ->
    w_exists w d = false -> w_mkdir w d = Some e -> Cause show repr w (name :: lit "generate_files" :: args) e
| Cause_generate name args ns d : parse_args (convert w) generate_parser args = Parsed ns -> lookup (lit "directory") ns = Some (SText d) ->
    w_exists w d = false -> w_mkdir w d = None -> Cause show repr w (name :: lit "generate_files" :: args) AttributeError.

Lemma print_exit_dies w h l n e : ended (print_exit w h l n) = Dies e -> e = UnicodeEncodeError /\ exists s, w_prints w s = false.
Proof.
  unfold print_exit. destruct (print_all (w_prints w) l) as [o b] eqn:P. cbn [ended]. destruct b; [discriminate|]. intros [= <-]. split; [reflexivity|].
  revert o P. induction l as [|s l IH]; cbn [print_all]; intros o P; [discriminate|]. destruct (w_prints w s) eqn:E; [|eauto].
  destruct (print_all (w_prints w) l) as [o' b']. injection P as _ ->. eapply IH. reflexivity.
Qed.
Lemma convert_crashed w d a e : convert w d a = Crashed e -> d = lit "filter" /\ e = InvalidFilterException /\ exists x y z, a = [x ++ 126%N :: y ++ 126%N :: z].
Proof.
  unfold convert. destruct (str_eqb d (lit "header")) eqn:E1.
  { assert (H : forall l, (exists hs, map_outcome parse_header_value l = Val hs) \/ map_outcome parse_header_value l = Raise ArgumentTypeError).
    { induction l as [|x l IH]; [left; eexists; reflexivity|]. cbn [map_outcome]. unfold parse_header_value at 1 3. destruct (split_first 58 x) as [[k v]|]; [|right; reflexivity].
      cbn [obind]. destruct IH as [[hs ->]| ->]; [left; eexists; reflexivity|right; reflexivity]. }
    destruct (H a) as [[hs ->]| ->]; discriminate. }
  destruct (str_eqb d (lit "dry")); [discriminate|]. destruct (str_eqb d (lit "no_verify")); [discriminate|]. destruct a as [|s [|? ?]]; [discriminate| |discriminate].
  destruct (str_eqb d (lit "file")); [destruct (w_file w s); discriminate|]. destruct (str_eqb d (lit "format")); [destruct (lookup s input_formats); discriminate|].
  destruct (str_eqb d (lit "output")); [destruct (lookup s output_formats); discriminate|].
  destruct (str_eqb d (lit "filter")) eqn:E2; [|discriminate]. apply str_eqb_spec in E2. destruct (new_filter s) as [f|x] eqn:N; [discriminate|].
  pose proof (proj1 (proj2 (P_Config.C12_filter_syntax s)) x N) as ->. apply (proj1 (proj1 (P_Config.C12_filter_syntax s))) in N. destruct N as (x & y & z & ->).
  intros [= <-]. split; [exact E2|]. split; [reflexivity|]. exists x, y, z. reflexivity.
Qed.
Lemma no_filter p : (forall o n, ~ In (o, (lit "filter", n)) (options p)) -> ~ In (lit "filter") (positionals p) ->
  forall args a, ~ In (lit "filter", a) (fst (scan_args p args)).
Proof.
  intros O N args a I. unfold scan_args in I. destruct (classify_all (options p) args) as [l|] eqn:K; [|destruct I].
  destruct (scan_sources _ _ _ _ _ _ I) as [J|(s & f & J & D & _)]; [contradiction|]. destruct (classify_all_dest _ _ _ _ _ K J) as [o Q].
  rewrite <- D in Q. exact (O _ _ Q).
Qed.
Lemma api_no_abort show repr c conf srv a h : run (check_api show repr c conf) srv <> (Abort a, h).
Proof.
  destruct (P_Api.version_cases show repr c conf) as [[_ E]|[_ E]]; rewrite E; [|discriminate].
  destruct (lookup (cf_suite conf) (available_suites show repr)) as [l|] eqn:L; [rewrite (ApiFacts.run_root _ _ _ _ _ L)|unfold run, execute_tests; rewrite L; discriminate].
  destruct (ProgSpec.meaning _ _ _) as [[es [m|b|e t]] h']; discriminate.
Qed.
Theorem C88_causes : forall show repr w argv e, ended (main show repr w argv) = Dies e -> Cause show repr w argv e.
Proof.
  intros show repr w argv e E.
  assert (PR : forall h l k, ended (print_exit w h l k) = Dies e -> Cause show repr w argv e)
    by (intros h l k Q; apply print_exit_dies in Q; destruct Q as [-> [s Q]]; now apply (Cause_print _ _ _ _ s)).
  destruct (main_cases show repr w argv) as [(name & args & ->)|[(name & args & ->)|[(name & args & ->)|(l & M)]]].
  - rewrite main_file in E. destruct (run_file_cases show repr w args) as [(k & P & R)|[(x & P & R)|(ns & f & fmt & P & L & F & R)]]; rewrite R in E; [discriminate E| |].
    + exfalso. apply parse_dies in P. destruct P as (d & a & I & C). apply convert_crashed in C. destruct C as (-> & _).
      refine (no_filter file_parser _ _ args a I); [intros o n J; repeat (destruct J as [J|J]; [discriminate J|]); destruct J|intros [J|[]]; discriminate J].
    + destruct (check_file _ _ _ _ _) as [r|x] eqn:C; [now apply PR in E|]. injection E as ->. unfold check_file in C. destruct fmt.
      * eapply Cause_xml; eauto.
      * eapply Cause_json; eauto.
      * destruct (str_eqb _ (lit "Environment")) eqn:Q; [eapply Cause_aasx; eauto|]. injection C as <-. eapply Cause_model_type; eauto.
        intros W. now rewrite W, str_eqb_refl in Q.
  - rewrite main_server in E. destruct (run_api_cases show repr w args) as [(k & P & R)|[(x & P & R)|(ns & P & [(V & R)|[(V & L & R)|(s & V & L & [(N & R)|(suite & S & R)])]])]];
      rewrite R in E; try discriminate E.
    + injection E as ->. apply parse_dies in P. destruct P as (d & a & I & C). apply convert_crashed in C. destruct C as (-> & -> & x & y & z & ->). eapply Cause_filter; eauto.
    + injection E as <-. eapply Cause_version; eauto.
    + injection E as <-. eapply Cause_suite; eauto.
    + destruct (run _ _) as [[[r m]|a|x t] h] eqn:Q; [now apply PR in E|now apply api_no_abort in Q|]. injection E as ->. eapply Cause_server; eauto.
  - rewrite main_generate in E. unfold generate_files in E. destruct (parse_args (convert w) generate_parser args) as [ns|k|x] eqn:P; [|discriminate E|].
    + destruct (parsed_directory _ _ _ P) as [d L]. assert (D : setting_of ns "directory" SNothing = SText d) by (unfold setting_of; now rewrite L). rewrite D in E. cbn [text_of] in E.
      destruct (w_exists w d) eqn:X; [now apply PR in E|]. destruct (w_mkdir w d) as [x|] eqn:M; injection E as <-; [eapply Cause_mkdir|eapply Cause_generate]; eauto.
    + exfalso. apply parse_dies in P. destruct P as (d & a & I & C). apply convert_crashed in C. destruct C as (-> & _).
      refine (no_filter generate_parser _ _ args a I); [intros o n J; repeat (destruct J as [J|J]; [discriminate J|]); destruct J|intros [J|[]]; discriminate J].
  - rewrite M in E. now apply PR in E.
Qed.
Print Assumptions C88_causes.

(** * Examples for C85 *)
Definition json_file (v : json) : file := File (PBad []) (OpcModel.Content (PBad []) (POk v)).
Definition example_world : world :=
  World (fun s => if str_eqb s (lit "good") then Some (json_file P_Template.good_contact)
                  else if str_eqb s (lit "bad") then Some (json_file (P_Template.phone_doc [P_Template.city])) else None)
        (fun _ _ => Failed RequestException []) (fun _ => false) (fun _ => None) (fun _ => true) [].
Lemma reaches_example show repr n v x b : w_file example_world (lit n) = Some (json_file v) -> plain (lit n) ->
  P_Template.Complete "Environment" v x (P_Template.Verdict b) ->
  exists r, Reaches show repr example_world [[]; lit "check_file"; lit n; lit "--format"; lit "json"] r [] Otext /\ ok r = b.
Proof.
  intros W Pl H. destruct (H show repr) as (_ & _ & V). unfold P_Template.verdict_of in V.
  destruct (TemplateModel.json_to_obj repr TemplateModel.templates show v (lit "Environment")) as [[r y]|e] eqn:J; [|discriminate]. injection V as V. exists r. split; [|exact V].
  assert (C : Command file_parser [lit n; lit "--format"; lit "json"] [(lit "file", [lit n]); (lit "format", [lit "json"])]).
  { exists [Plain (lit n); Given (lit "--format") (lit "json")]. split; [reflexivity|]. apply M_plain; [exact Pl|]. apply M_given; [cbn; tauto|is_plain|]. constructor. }
  assert (P : parse_args (convert example_world) file_parser [lit n; lit "--format"; lit "json"] = Parsed [(lit "format", SInput Fjson); (lit "file", SFile (json_file v))]).
  { rewrite (command_parse example_world file_parser _ _ (or_introl eq_refl) C). cbn [take_actions]. change (str_eqb (lit "file") help) with false. cbn iota.
    rewrite convert_file, W. reflexivity. }
  eapply (Reaches_file _ _ _ [] _ _ (json_file v) Fjson r P); [reflexivity|reflexivity|].
  change (json_report show repr v (lit "Environment") = Val r). unfold json_report. now rewrite J.
Qed.
Example C85_ex : forall show repr,
  ended (main show repr example_world [[]; lit "check_file"; lit "good"; lit "--format"; lit "json"]) = Exits 0 /\
  ended (main show repr example_world [[]; lit "check_file"; lit "bad"; lit "--format"; lit "json"]) = Exits 1 /\
  ended (main show repr example_world [[]; lit "check_file"; lit "missing"; lit "--format"; lit "json"]) = Exits 2.
Proof.
  intros show repr. destruct P_Template.C71_example as (G & B & _).
  destruct (reaches_example show repr "good" _ _ _ eq_refl ltac:(is_plain) G) as (r & R & O). destruct (reaches_example show repr "bad" _ _ _ eq_refl ltac:(is_plain) B) as (r' & R' & O').
  assert (PA : forall l, Forall (fun s => w_prints example_world s = true) l) by (intros l; apply Forall_forall; reflexivity).
  split; [|split].
  - rewrite (proj1 (C85_exit _ _ _ _ _ _ _ R) (PA _)). cbn [ended]. unfold exit_status. now rewrite O.
  - rewrite (proj1 (C85_exit _ _ _ _ _ _ _ R') (PA _)). cbn [ended]. unfold exit_status. now rewrite O'.
  - reflexivity.
Qed.
