(** C78: a client with the default settings and a server mounted at /oauth2. *)
From Verif.Model Require Import HttpClient History.
From Verif.Spec Require Import ScopeSpec WireSpec RequestSpec ServerSpec ClientSpec TransportSpec DefaultSpec.
From Verif.Proof Require Import StrFacts Base64Facts HsFacts UrlFacts UrlParse Redirect RequestProofs RequestParse ServerFacts TransportFacts TransportProofs GrantProofs EffectProofs CodecProofs ClientProofs ArrivalProofs HistoryFacts HistoryProofs WireProofs.
Import TransportSpec.

#[local] Open Scope string_scope.
#[local] Opaque basic_auth_header encode_values canonical_addr url_string.

(** ** The endpoints *)

(** A path of letters behind a URI with a host. *)
Definition letters_path (t : string) : Prop :=
  (exists t', t = String "/" t') /\ no_ctl t = true /\ contains "?" t = false /\ contains "#" t = false /\
  unescape EncPath t = Some t.

Lemma strip_prefix_app_l p s r t : strip_prefix p s = Some r -> strip_prefix p (s +:+ t) = Some (r +:+ t).
Proof. rewrite !strip_prefix_some. intros ->. by rewrite app_assoc_s. Qed.

Lemma parse_url_extend raw u t : parse_url false raw = Some u -> u_scheme u <> "" -> u_host u <> "" ->
  contains "?" raw = false -> letters_path t ->
  exists u', parse_url false (raw +:+ t) = Some u' /\ u_scheme u' = u_scheme u /\ u_host u' = u_host u /\
    u_user u' = u_user u /\ u_path u' = u_path u +:+ t /\ u_rawquery u' = "".
Proof.
  intros H Hs Hh Hq ((t' & Et) & Hctl & Htq & _ & Hun). unfold parse_url in H.
  destruct (all_bytes (fun c => negb (is_ctl c)) raw) eqn:Ectl; [|done]. cbn [negb] in H.
  rewrite andb_false_r in H.
  destruct (seqb raw "*") eqn:Estar; [injection H as <-; done|].
  destruct (getscheme raw) as [[scheme0 rest0]|] eqn:Eg; [|done].
  destruct (getscheme_cases _ _ _ Eg) as [[-> ->]|[Hok Hraw]].
  { exfalso. apply Hs. destruct (match cut "?" raw with Some (x, "") => (x, true, "") | Some (x, q) => (x, false, q) | None => (raw, false, "") end)
      as [[rest fq] rq]. cbv zeta in H. change (to_lower "") with "" in H.
    repeat (match type of H with context [match ?x with _ => _ end] => destruct x end; try done); injection H as <-; done. }
  assert (Hq0 : contains "?" rest0 = false).
  { rewrite Hraw, !contains_app in Hq. apply orb_false_iff in Hq as [_ Hq]. by apply orb_false_iff in Hq as [_ Hq]. }
  rewrite (proj2 (cut_none "?" rest0) Hq0) in H. cbv zeta in H.
  destruct (strip_prefix "/" rest0) as [r1|] eqn:Eroot; cbn [negb andb] in H.
  2:{ destruct (seqb (to_lower scheme0) "") eqn:E0; cbn [negb] in H; [|injection H as <-; done].
      exfalso. destruct (first_segment_colon rest0); [done|]. destruct (strip_prefix "//" rest0) eqn:E2.
      - apply strip_prefix_some in E2. rewrite E2 in Eroot. discriminate Eroot.
      - destruct (set_escaped EncPath rest0) as [[? ?]|]; [|done]. by injection H as <-. }
  destruct (strip_prefix "//" rest0) as [after|] eqn:E2.
  2:{ destruct (set_escaped EncPath rest0) as [[? ?]|]; [|done]. by injection H as <-. }
  destruct (negb (seqb (to_lower scheme0) "") || _) eqn:Ecase.
  2:{ destruct (set_escaped EncPath rest0) as [[? ?]|]; [|done]. by injection H as <-. }
  assert (Hlow : seqb (to_lower scheme0) "" = false).
  { destruct Hok as (a & r & -> & _). done. }
  assert (Hcat : raw +:+ t = scheme0 +:+ ":" +:+ (rest0 +:+ t)) by (by rewrite Hraw, !app_assoc_s).
  unfold parse_url. change (all_bytes (fun c => negb (is_ctl c)) (raw +:+ t)) with (no_ctl (raw +:+ t)).
  rewrite no_ctl_app. change (no_ctl raw) with (all_bytes (fun c => negb (is_ctl c)) raw). rewrite Ectl, Hctl. cbn [negb andb].
  rewrite andb_false_r.
  assert (seqb (raw +:+ t) "*" = false) as ->.
  { apply seqb_false. rewrite Hcat. destruct Hok as (a & r & -> & _). rewrite app_cons_s. intros E. injection E as _ E. by destruct r. }
  rewrite Hcat, getscheme_app by done.
  assert (cut "?" (rest0 +:+ t) = None) as -> by (apply cut_none; by rewrite contains_app, Hq0, Htq).
  cbv zeta. rewrite (strip_prefix_app_l _ _ _ t Eroot), (strip_prefix_app_l _ _ _ t E2), Hlow. cbn [negb andb orb].
  destruct (cut "/" after) as [[a b]|] eqn:Ea.
  - apply cut_some in Ea as [-> Ha]. rewrite app_assoc_s, app_cons_s, cut_app by done.
    destruct (parse_authority a) as [[user host]|]; [|done].
    unfold set_escaped in *. destruct (unescape EncPath (String "/" b)) as [path|] eqn:Ep; [|done]. injection H as <-.
    rewrite <- app_cons_s. rewrite Et, unescape_split, Ep, <- Et, Hun by done. eexists. split; [reflexivity|].
    cbn [mk_url u_scheme u_host u_user u_path u_rawquery]. done.
  - apply cut_none in Ea. rewrite Et, cut_app, <- Et by done.
    destruct (parse_authority after) as [[user host]|]; [|done].
    unfold set_escaped in *. cbn [unescape] in H. injection H as <-.
    rewrite Hun. eexists. split; [reflexivity|]. cbn [mk_url u_scheme u_host u_user u_path u_rawquery]. done.
Qed.

Lemma default_endpoint base name : base_uri base -> In name ["token"; "introspect"; "revoke"] ->
  sendable (base +:+ "/oauth2/" +:+ name) /\ leads_to (base +:+ "/oauth2/" +:+ name) name.
Proof.
  intros (u & Hu & Hs & Hh & Hq & Hf) Hn. apply without_contains in Hq, Hf.
  assert (Hl : letters_path ("/oauth2/" +:+ name)).
  { destruct Hn as [<-|[<-|[<-|[]]]]; (split; [eexists; reflexivity|]); do 3 (split; [reflexivity|]); vm_compute; reflexivity. }
  assert (Hsch : u_scheme u <> "") by (cbn [In] in Hs; intros E; rewrite E in Hs; intuition discriminate).
  assert (Hhost : u_host u <> "") by (intros E; rewrite E in Hh; done).
  unfold url_parse in Hu. rewrite (proj2 (cut_none "#" base) Hf) in Hu. change (seqb "" "") with true in Hu. cbn iota in Hu.
  destruct (parse_url false base) as [u0|] eqn:Ep; [|done]. injection Hu as ->.
  destruct (parse_url_extend _ _ _ Ep Hsch Hhost Hq Hl) as (u' & Hp & H1 & H2 & _ & H3 & H4).
  assert (Hu' : url_parse (base +:+ "/oauth2/" +:+ name) = Some u').
  { unfold url_parse. destruct Hl as (_ & _ & _ & Hl & _).
    assert (cut "#" (base +:+ "/oauth2/" +:+ name) = None) as -> by (apply cut_none; by rewrite contains_app, Hf, Hl).
    rewrite Hp. reflexivity. }
  split.
  - exists u'. split; [done|]. rewrite H1, H2, H3, H4. split; [done|]. split; [done|]. split.
    + intros E. destruct (u_path u); discriminate E.
    + by apply without_contains.
  - exists u', (u_path u +:+ "/oauth2"). split; [done|]. rewrite H3, H4. split.
    + by rewrite app_assoc_s.
    + exists ∅. reflexivity.
Qed.

Lemma c78_endpoints base k : base_uri base ->
  sendable (endpoint_of (default_client base) k) /\ leads_to (endpoint_of (default_client base) k) (endpoint_name k).
Proof.
  intros Hb. assert (endpoint_of (default_client base) k = base +:+ "/oauth2/" +:+ endpoint_name k) as -> by (by destruct k).
  apply default_endpoint; [done|]. destruct k; cbn; tauto.
Qed.

(** ** Errors fit *)

Definition small (e : error) : Prop := slen (json_encode (error_json e)) <= 2048.
Ltac small_const := apply Nat.leb_le; vm_compute; reflexivity.

Lemma parse_token_small secret str msg : parse_token secret str = inr msg -> small (InvalidRequest msg).
Proof. unfold parse_token. intros H. cbv zeta in H. split_match H; injection H as <-; small_const. Qed.
Ltac small_error := lazymatch goal with
  | H : parse_token _ _ = inr ?m |- small (InvalidRequest ?m) => exact (parse_token_small _ _ _ H)
  | _ => small_const end.
#[local] Opaque parse_token.

Lemma parse_token_request_small r e : parse_token_request r = inr e -> small e.
Proof.
  unfold parse_token_request. intros H. cbv zeta in H. split_match H; try (injection H as <-; small_error).
  all: destruct (basic_auth r) as [[]|]; split_match H; injection H as <-; small_error.
Qed.
Lemma parse_lookup_small r e : parse_lookup_request r = inr e -> small e.
Proof. unfold parse_lookup_request. intros H. cbv zeta in H. split_match H; injection H as <-; small_error. Qed.
Lemma token_small ev s r s' e : token_endpoint ev s r = Done s' (OError e) -> small e.
Proof.
  unfold token_endpoint. intros H.
  destruct (parse_token_request r) as [req|e0] eqn:Ep.
  2:{ injection H as _ <-. by eapply parse_token_request_small. }
  unfold handle_password, handle_client_credentials, handle_code, handle_refresh in H. cbv zeta in H.
  split_match H; try discriminate H; injection H as _ <-; small_error.
Qed.
Lemma prologue_small s r e : lookup_prologue s r = inr e -> small e.
Proof.
  unfold lookup_prologue. destruct (parse_lookup_request r) eqn:E; intros H; [|injection H as <-; by eapply parse_lookup_small].
  split_match H; injection H as <-; small_error.
Qed.
Lemma revocation_small s r s' e : revocation_endpoint s r = Done s' (OError e) -> small e.
Proof.
  unfold revocation_endpoint. destruct (lookup_prologue s r) as [[req t]|e0] eqn:E; intros H.
  2:{ injection H as _ <-. by eapply prologue_small. }
  cbv zeta in H. destruct (sv_access s !! signature_string t) eqn:Ea.
  - destruct (negb (seqb (cd_client_id c) (lq_client_id req))); split_match H; try discriminate H; injection H as _ <-; small_error.
  - split_match H; try discriminate H; injection H as _ <-; small_error.
Qed.
Lemma introspection_small s r s' e : introspection_endpoint s r = Done s' (OError e) -> small e.
Proof.
  unfold introspection_endpoint. destruct (lookup_prologue s r) as [[req t]|e0] eqn:E; intros H.
  2:{ injection H as _ <-. by eapply prologue_small. }
  cbv zeta in H. destruct (sv_access s !! signature_string t) eqn:Ea.
  - destruct (negb (seqb (cd_client_id c) (lq_client_id req))); split_match H; try discriminate H; injection H as _ <-; small_error.
  - split_match H; try discriminate H; injection H as _ <-; small_error.
Qed.

(** ** Sizes of documents *)

Lemma json_rune_length r : slen (json_rune r) <= 6.
Proof.
  destruct r as [n|]; [|vm_compute; lia]. unfold json_rune.
  repeat match goal with |- context [if ?b then _ else _] => destruct b end; try (cbn; lia).
  { generalize (hex_lower (n / 16)), (hex_lower (n mod 16)). intros a b. change (6 <= 6). lia. }
  unfold utf8_encode. repeat match goal with |- context [if ?b then _ else _] => destruct b end; cbn [String.length str1 String.append]; lia.
Qed.
Lemma runes_length n s : slen s <= n -> length (runes s) <= slen s.
Proof.
  revert s. induction n as [|n IH]; intros [|a r] H; cbn [String.length] in *; [cbn; lia|lia|cbn; lia|].
  - cbn [runes]. destruct (ord a <? 128)%N; [cbn [length]; specialize (IH r); lia|].
    destruct r as [|b r1]; [cbn; lia|].
    destruct (seq2 a b); [cbn [length String.length] in *; specialize (IH r1); lia|].
    destruct r1 as [|c r2]; [cbn [length]; specialize (IH (str1 b)); unfold str1 in IH; cbn [String.length] in *; lia|].
    destruct (seq3 a b c); [cbn [length String.length] in *; specialize (IH r2); lia|].
    destruct r2 as [|d r3]; [cbn [length]; specialize (IH (String b (str1 c))); unfold str1 in IH; cbn [String.length] in *; lia|].
    destruct (seq4 a b c d); [cbn [length String.length] in *; specialize (IH r3); lia|].
    cbn [length]. specialize (IH (String b (String c (String d r3)))). cbn [String.length] in *. lia.
Qed.
Lemma json_string_length s : slen (json_string s) <= 6 * slen s + 2.
Proof.
  unfold json_string. cbn [String.length]. rewrite slen_app. cbn [String.length str1].
  assert (slen (json_body s) <= 6 * length (runes s)).
  { unfold json_body. induction (runes s) as [|r l IH]; [cbn; lia|]. cbn [map concat_str fold_right length].
    rewrite slen_app. pose proof (json_rune_length r). unfold concat_str in IH. lia. }
  pose proof (runes_length _ s (Nat.le_refl _)). lia.
Qed.

Lemma dec_fuel_length k fuel n acc : (n < 10 ^ N.of_nat k)%N -> 1 <= k -> slen (dec_fuel fuel n acc) <= slen acc + k.
Proof.
  revert fuel n acc. induction k as [|k IH]; intros fuel n acc Hn Hk; [lia|].
  destruct fuel as [|f]; cbn [dec_fuel]; [lia|]. destruct (n <? 10)%N eqn:E; [cbn [String.length]; lia|].
  assert (Hk' : 1 <= k). { destruct k; [|lia]. apply N.ltb_ge in E. cbn in Hn. lia. }
  assert (n / 10 < 10 ^ N.of_nat k)%N.
  { apply N.div_lt_upper_bound; [lia|]. rewrite Nat2N.inj_succ, N.pow_succ_r' in Hn. lia. }
  specialize (IH f (n / 10)%N (String (digit_char (n mod 10)) acc)). cbn [String.length] in IH. lia.
Qed.
Lemma itoa_length z : int64 z -> slen (itoa z) <= 20.
Proof.
  unfold int64. intros H.
  assert (Hd : forall p, (Zpos p <= 9223372036854775808)%Z -> slen (dec_of_N (Npos p)) <= 19).
  { intros p Hp. unfold dec_of_N. pose proof (dec_fuel_length 19 (S (N.to_nat (N.log2 (Npos p)))) (Npos p) "") as Hl.
    change (10 ^ N.of_nat 19)%N with 10000000000000000000%N in Hl. cbn [String.length] in Hl. lia. }
  destruct z as [|p|p]; cbn [itoa String.length].
  - lia.
  - specialize (Hd p). lia.
  - specialize (Hd p). lia.
Qed.

Definition members_length (l : list (string * json)) : nat :=
  fold_right (fun kv n => slen (json_string (fst kv)) + slen (json_render (snd kv)) + 2 + n) 0 l.
Lemma object_length l : slen (json_encode (JObj l)) <= members_length l + 3.
Proof.
  unfold json_encode. cbn [json_render]. rewrite !slen_app. cbn [String.length str1].
  assert (slen (join "," (map (fun kv => json_string (fst kv) +:+ ":" +:+ json_render (snd kv)) l)) <= members_length l); [|lia].
  unfold join. induction l as [|kv l IH]; [cbn; lia|]. destruct l as [|kv' l].
  - cbn [map String.concat members_length fold_right]. rewrite !slen_app. cbn [String.length]. lia.
  - cbn [map] in IH |- *.
    assert (Hc : forall x y m, String.concat "," (x :: y :: m) = x +:+ "," +:+ String.concat "," (y :: m)) by done.
    rewrite Hc, !slen_app. cbn [String.length].
    assert (Hm : members_length (kv :: kv' :: l) = slen (json_string (fst kv)) + slen (json_render (snd kv)) + 2 + members_length (kv' :: l)) by done.
    rewrite Hm. lia.
Qed.
Lemma members_app l l' : members_length (l ++ l')%list = members_length l + members_length l'.
Proof. induction l as [|kv l IH]; [done|]. cbn [app members_length fold_right]. unfold members_length in IH. rewrite IH. unfold members_length. lia. Qed.
Lemma omit_string_length k v : members_length (omit_string k v) <= slen (json_string k) + 6 * slen v + 4.
Proof.
  unfold omit_string. destruct (seqb v ""); cbn [members_length fold_right]; [lia|]. cbn [fst snd json_render].
  pose proof (json_string_length v). lia.
Qed.
Lemma omit_scope_length k v : members_length (omit_scope k v) <= slen (json_string k) + 6 * slen (scope_string v) + 4.
Proof.
  unfold omit_scope, scope_json. destruct (scope_empty v); cbn [members_length fold_right]; [lia|]. cbn [fst snd json_render].
  pose proof (json_string_length (scope_string v)). lia.
Qed.

(** A token for a key of at most sixteen bytes. *)
Lemma token_string_length secret n src a src' : (n <= 16)%Z -> must_generate secret n src = Some (a, src') ->
  slen (token_string a) <= 66.
Proof.
  unfold must_generate, generate. intros Hn H. destruct (n <? 0)%Z; [done|].
  destruct (read_full (Z.to_nat n) src) as [[key rest]|] eqn:E; [|done]. injection H as <- _.
  assert (Hk : slen key <= 16).
  { destruct (Nat.ltb_spec (slen src) (Z.to_nat n)) as [Hl|Hl].
    - by rewrite (proj2 (read_full_spec _ _) Hl) in E.
    - destruct (proj1 (read_full_spec _ _) Hl) as (k & x & Hk & _ & Hlen). rewrite Hk in E. injection E as <- _. lia. }
  unfold token_string, key_string. rewrite !slen_app, signature_string_length by apply hmac_length. cbn [String.length token_from_key hs_key].
  pose proof (rawurl_length key) as Hl. destruct (slen key mod 3) as [|[|m]]; lia.
Qed.

Lemma token_document_length ev s r s' t : handle ev s r = Done s' (OToken t) -> (cfg_key_length (sv_config s) <= 16)%Z ->
  int64 (tr_expires_in t) -> slen (scope_string (tr_scope t)) <= 150 -> tr_state t = "" ->
  slen (json_encode (token_json t)) <= 2048.
Proof.
  intros Hh Hn He Hsc Hst. apply token_answer_cases in Hh as (t0 & client & owner & code & (Ha & Hr & _ & _ & Hty) & Hi).
  assert (Hlen : slen (tr_access_token t) <= 66 /\ slen (tr_refresh_token t) <= 66 /\ tr_token_type t = "bearer").
  { rewrite Ha, Hr, Hty. destruct Hi as [(s1 & (a & src & f & src' & Ga & Gf & -> & _) & _)|(a & src & Ga & -> & _)];
      cbn [tr_access_token tr_refresh_token tr_token_type].
    - split_and!; [by eapply token_string_length|by eapply token_string_length|done].
    - split_and!; [by eapply token_string_length|cbn; lia|done]. }
  destruct Hlen as (L1 & L2 & L3). unfold token_json. etransitivity; [apply object_length|].
  rewrite !members_app, Hst. change (members_length (omit_string "state" "")) with 0.
  pose proof (omit_string_length "refresh_token" (tr_refresh_token t)) as M1.
  pose proof (omit_scope_length "scope" (tr_scope t)) as M2.
  change (slen (json_string "refresh_token")) with 15 in M1. change (slen (json_string "scope")) with 7 in M2.
  cbn [members_length fold_right fst snd json_render]. rewrite L3.
  change (slen (json_string "token_type")) with 12. change (slen (json_string "bearer")) with 8.
  change (slen (json_string "access_token")) with 14. change (slen (json_string "expires_in")) with 12.
  pose proof (json_string_length (tr_access_token t)). pose proof (itoa_length _ He). lia.
Qed.

Lemma introspection_document_length ev s r s' x : handle ev s r = Done s' (OIntro x) -> int64 (ir_expires_at x) ->
  slen (ir_client_id x) + slen (ir_username x) + scope_bytes (ir_scope x) <= 250 ->
  slen (json_encode (introspection_json x)) <= 2048.
Proof.
  intros Hh He Hb. change (scope_bytes (ir_scope x)) with (slen (scope_string (ir_scope x))) in Hb.
  apply c47_discloses in Hh as [->|(c & kind & _ & (_ & H1 & _ & _ & _ & _ & H6 & H7 & H8 & H9 & H10 & H11 & H12) & Hk)].
  { apply Nat.leb_le. vm_compute. reflexivity. }
  unfold introspection_json. rewrite H6, H7, H8, H9, H10, H11, H12.
  etransitivity; [apply object_length|]. rewrite !members_app.
  change (omit_string "sub" "") with (@nil (string * json)). change (omit_string "aud" "") with (@nil (string * json)).
  change (omit_string "iss" "") with (@nil (string * json)). change (omit_string "jti" "") with (@nil (string * json)).
  change (omit_int "iat" 0) with (@nil (string * json)). change (omit_int "nbf" 0) with (@nil (string * json)).
  change (omit_map "extra" None) with (@nil (string * json)). change (members_length []) with 0.
  pose proof (omit_string_length "client_id" (ir_client_id x)) as M1. change (slen (json_string "client_id")) with 11 in M1.
  pose proof (omit_string_length "username" (ir_username x)) as M2. change (slen (json_string "username")) with 10 in M2.
  pose proof (omit_string_length "token_type" (ir_token_type x)) as M3. change (slen (json_string "token_type")) with 12 in M3.
  pose proof (omit_scope_length "scope" (ir_scope x)) as M4. change (slen (json_string "scope")) with 7 in M4.
  assert (M5 : slen (ir_token_type x) <= 13) by (rewrite H1; destruct Hk as [[-> _]|[-> _]]; cbn; lia).
  assert (M6 : members_length (omit_int "exp" (ir_expires_at x)) <= 27).
  { unfold omit_int. destruct (_ =? _)%Z; [cbn; lia|]. cbn [members_length fold_right fst snd json_render].
    change (slen (json_string "exp")) with 5. pose proof (itoa_length _ He). lia. }
  assert (M7 : members_length [("active", JBool (ir_active x))] <= 15) by (destruct (ir_active x); apply Nat.leb_le; vm_compute; reflexivity).
  lia.
Qed.

(** ** The calls *)

Lemma default_limit base : cc_response_limit (default_client base) = 2048%Z.
Proof. reflexivity. Qed.

Lemma error_fits s' ev s r w e : serve_http ev s r new_rw = (s', Some w) -> handle ev s r = Done s' (OError e) ->
  plain_error e -> small e -> fits w 2048.
Proof.
  intros Hs Hh Hp Hsm. destruct (serve_sent _ _ _ _ _ Hs) as (o & Hh' & _ & Hw). rewrite Hh in Hh'. injection Hh' as <-.
  pose proof (plain_error_shape _ Hp) as (Hnr & _).
  inversion Hw as [e0 w0 Hp' Hw'|rq e0 loc Hr Hne Hl| | | | | | |]; subst.
  - unfold fits. cbn [rw_body]. unfold small in Hsm. lia.
  - destruct Hr as (b & Hb & ->). cbn [set_error_redirect e_redirect_uri] in Hnr. done.
Qed.
Lemma small_received base ev s r s' e : handle ev s r = Done s' (OError e) -> plain_error e -> small e ->
  exists rs e', connected ev s r = Some rs /\ (rs_status rs =? 200)%Z = false /\
    parse_request_error rs (cc_response_limit (default_client base)) = GErr e' /\ same_error e e'.
Proof.
  intros Hh Hp Hsm. destruct (serve_done _ _ _ _ _ Hh) as [w Hs].
  eapply error_received; [done..|]. rewrite default_limit. by eapply error_fits.
Qed.
Lemma panic_connected ev s r s' : handle ev s r = Panic s' -> connected ev s r = None.
Proof. intros H. unfold connected, serve_http. by rewrite H. Qed.

Lemma c78_authenticate : forall n hc net cfg l ev s base q r, history cfg l s -> config_texts cfg -> (cfg_key_length cfg <= 16)%Z ->
  base_uri base -> has_secret (CallAuthenticate q) -> first_answered net ev s ->
  build_token_request (base +:+ "/oauth2/token") q = Some r ->
  let result := one_message (authenticate_over n hc net (default_client base) q) in
  match handle ev s r with
  | Done _ (OToken t) => scope_bytes (tr_scope t) <= 150 -> exists t', result (inl t') /\ same_token t t'
  | Done _ (OError e) => exists e', result (inr (GErr e')) /\ same_error e e'
  | Done _ _ => False
  | Panic _ => result (inr GOther)
  end.
Proof.
  intros n hc net cfg l ev s base q r Hist Hcfg Hkey Hb Hk Hnet Hr.
  destruct (c78_endpoints base (CallAuthenticate q) Hb) as [Hs Hl].
  destruct (c77_authenticate n hc net ev s (default_client base) q Hs Hl Hk Hnet) as (w & r' & _ & _ & Hr' & Hover).
  assert (Hr0 : build_token_request (cc_base_uri (default_client base) +:+ cc_token_endpoint (default_client base)) q = Some r) by exact Hr.
  assert (r' = r) as -> by congruence. cbv zeta. rewrite Hover. clear Hr' Hover.
  pose proof (leads_endpoint _ _ _ _ _ _ Hl Hr0) as He. cbn [endpoint_name] in He.
  assert (Hone : forall a, client_authenticate (default_client base) (connected ev s) q = a ->
    one_message ([w], Some (client_authenticate (default_client base) (connected ev s) q)) a) by (intros a <-; by exists w).
  unfold client_authenticate in Hone |- *. rewrite Hr0 in Hone |- *.
  destruct (handle ev s r) as [s' o|s'] eqn:Hh.
  2:{ rewrite (panic_connected _ _ _ _ Hh) in Hone |- *. by apply Hone. }
  pose proof Hh as Ht. rewrite handle_token in Ht by done.
  destruct (token_answer _ _ _ _ _ Ht) as [(e & -> & Hp)|(t & -> & Hrd & Hst)].
  - destruct (small_received base ev s r s' e Hh Hp (token_small _ _ _ _ _ Ht)) as (rs & e' & Hc & H2 & H3 & Hsame).
    rewrite Hc, H2 in Hone |- *. cbn [negb] in Hone |- *. rewrite H3 in Hone |- *. exists e'. split; [by apply Hone|done].
  - intros Hsc.
    assert (Htx : token_texts t). { eapply issued_texts; [exact Hist|done|exact Hh|]. rewrite Hst. by apply ascii_utf8. }
    destruct (c56_roundtrip new_rw t) as (w' & rs & Hw & Hrec & Hrs & Hp); [done..|].
    assert (Hserve : serve_http ev s r new_rw = (s', Some w')).
    { unfold serve_http. rewrite Hh. cbn [write_outcome]. by rewrite Hw. }
    assert (Hfit : fits w' (cc_response_limit (default_client base))).
    { rewrite default_limit. destruct (serve_sent _ _ _ _ _ Hserve) as (o & Ho & _ & Hsent). rewrite Hh in Ho. injection Ho as <-.
      inversion Hsent; subst; [|done]. unfold fits. cbn [sent_document rw_body].
      pose proof (token_document_length ev s r s' t Hh) as Hlen. rewrite (history_config _ _ _ Hist) in Hlen.
      specialize (Hlen Hkey (proj1 (proj2 (proj2 Htx))) Hsc Hst). lia. }
    destruct (Hp _ Hfit) as (t' & Ht' & Hsame).
    rewrite (connected_served _ _ _ _ _ Hserve), Hrec, Hrs in Hone |- *. change (negb (200 =? 200)%Z) with false in Hone |- *. cbn iota in Hone |- *.
    rewrite Ht' in Hone |- *. exists t'. split; [by apply Hone|done].
Qed.

Lemma c78_introspect : forall n hc net cfg l ev s base q r, history cfg l s -> config_texts cfg -> credential_texts s ->
  base_uri base -> has_secret (CallIntrospect q) -> first_answered net ev s ->
  build_introspection_request (base +:+ "/oauth2/introspect") q = Some r ->
  let result := one_message (introspect_over n hc net (default_client base) q) in
  match handle ev s r with
  | Done _ (OIntro x) => String.length (ir_client_id x) + String.length (ir_username x) + scope_bytes (ir_scope x) <= 250 ->
      exists x', result (inl x') /\ same_introspection x x'
  | Done _ (OError e) => exists e', result (inr (GErr e')) /\ same_error e e'
  | Done _ _ => False
  | Panic _ => result (inr GOther)
  end.
Proof.
  intros n hc net cfg l ev s base q r Hist Hcfg Hcr Hb Hk Hnet Hr.
  destruct (c78_endpoints base (CallIntrospect q) Hb) as [Hs Hl].
  destruct (c77_introspect n hc net ev s (default_client base) q Hs Hl Hk Hnet) as (w & r' & _ & _ & Hr' & Hover).
  assert (Hr0 : build_introspection_request (cc_base_uri (default_client base) +:+ cc_introspection_endpoint (default_client base)) q = Some r) by exact Hr.
  assert (r' = r) as -> by congruence. cbv zeta. rewrite Hover. clear Hr' Hover.
  pose proof (leads_endpoint _ _ _ _ _ _ Hl Hr0) as He. cbn [endpoint_name] in He.
  assert (Hone : forall a, client_introspect (default_client base) (connected ev s) q = a ->
    one_message ([w], Some (client_introspect (default_client base) (connected ev s) q)) a) by (intros a <-; by exists w).
  unfold client_introspect in Hone |- *. rewrite Hr0 in Hone |- *.
  destruct (handle ev s r) as [s' o|s'] eqn:Hh.
  2:{ rewrite (panic_connected _ _ _ _ Hh) in Hone |- *. by apply Hone. }
  pose proof Hh as Ht. rewrite handle_introspect in Ht by done.
  destruct (introspection_answer _ _ _ _ Ht) as [(e & -> & Hp)|(x & -> & Hx)].
  - destruct (small_received base ev s r s' e Hh Hp (introspection_small _ _ _ _ Ht)) as (rs & e' & Hc & H2 & H3 & Hsame).
    rewrite Hc, H2 in Hone |- *. cbn [negb] in Hone |- *. rewrite H3 in Hone |- *. exists e'. split; [by apply Hone|done].
  - intros Hsc.
    assert (Htx : introspection_texts x) by (eapply introspected_texts; [exact Hist|done|done|exact Hh]).
    destruct (c57_roundtrip new_rw x) as (w' & rs & Hw & Hrec & Hrs & Hp); [done| |done|].
    { intros Ha. specialize (Hx Ha). unfold known_token_type, AccessToken, RefreshToken in Hx. apply orb_true_iff in Hx as [Hx|Hx];
        apply seqb_true in Hx; rewrite Hx; cbn; tauto. }
    assert (Hserve : serve_http ev s r new_rw = (s', Some w')).
    { unfold serve_http. rewrite Hh. cbn [write_outcome]. by rewrite Hw. }
    assert (Hfit : fits w' (cc_response_limit (default_client base))).
    { rewrite default_limit. destruct (serve_sent _ _ _ _ _ Hserve) as (o & Ho & _ & Hsent). rewrite Hh in Ho. injection Ho as <-.
      inversion Hsent; subst. unfold fits. cbn [sent_document rw_body].
      assert (Hexp : int64 (ir_expires_at x)) by (unfold introspection_texts, introspection_texts_with in Htx; tauto).
      pose proof (introspection_document_length ev s r s' x Hh Hexp Hsc). lia. }
    destruct (Hp _ Hfit) as (x' & Hx' & Hsame).
    rewrite (connected_served _ _ _ _ _ Hserve), Hrec, Hrs in Hone |- *. change (negb (200 =? 200)%Z) with false in Hone |- *. cbn iota in Hone |- *.
    rewrite Hx' in Hone |- *. exists x'. split; [by apply Hone|done].
Qed.

Lemma c78_revoke : forall n hc net ev s base q r,
  base_uri base -> has_secret (CallRevoke q) -> first_answered net ev s ->
  build_revocation_request (base +:+ "/oauth2/revoke") q = Some r ->
  let result := one_message (revoke_over n hc net (default_client base) q) in
  match handle ev s r with
  | Done _ ORevoked => result None
  | Done _ (OError e) => exists e', result (Some (GErr e')) /\ same_error e e'
  | Done _ _ => False
  | Panic _ => result (Some GOther)
  end.
Proof.
  intros n hc net ev s base q r Hb Hk Hnet Hr.
  destruct (c78_endpoints base (CallRevoke q) Hb) as [Hs Hl].
  destruct (c77_revoke n hc net ev s (default_client base) q Hs Hl Hk Hnet) as (w & r' & _ & _ & Hr' & Hover).
  assert (Hr0 : build_revocation_request (cc_base_uri (default_client base) +:+ cc_revocation_endpoint (default_client base)) q = Some r) by exact Hr.
  assert (r' = r) as -> by congruence. cbv zeta. rewrite Hover. clear Hr' Hover.
  pose proof (leads_endpoint _ _ _ _ _ _ Hl Hr0) as He. cbn [endpoint_name] in He.
  assert (Hone : forall a, client_revoke (default_client base) (connected ev s) q = a ->
    one_message ([w], Some (client_revoke (default_client base) (connected ev s) q)) a) by (intros a <-; by exists w).
  unfold client_revoke in Hone |- *. rewrite Hr0 in Hone |- *.
  destruct (handle ev s r) as [s' o|s'] eqn:Hh.
  2:{ rewrite (panic_connected _ _ _ _ Hh) in Hone |- *. by apply Hone. }
  pose proof Hh as Ht. rewrite handle_revoke in Ht by done.
  destruct (revocation_answer _ _ _ _ Ht) as [(e & -> & Hp)| ->].
  - destruct (small_received base ev s r s' e Hh Hp (revocation_small _ _ _ _ Ht)) as (rs & e' & Hc & H2 & H3 & Hsame).
    rewrite Hc, H2 in Hone |- *. cbn [negb] in Hone |- *. rewrite H3 in Hone |- *. exists e'. split; [by apply Hone|done].
  - destruct (serve_done _ _ _ _ _ Hh) as [w' Hserve].
    destruct (serve_sent _ _ _ _ _ Hserve) as (o & Ho & _ & Hsent). rewrite Hh in Ho. injection Ho as <-.
    apply Hone. rewrite (connected_served _ _ _ _ _ Hserve). inversion Hsent; subst. done.
Qed.
