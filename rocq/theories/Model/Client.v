(** client.go *)
From Verif.Model Require Export Endpoints Server.

(** client.go:8-14 [ClientConfig]. *)
Record client_config := {
  cc_base_uri : string;
  cc_token_endpoint : string;
  cc_introspection_endpoint : string;
  cc_revocation_endpoint : string;
  cc_response_limit : Z
}.

(** client.go:17-24 [Default]. *)
Definition client_default (base_uri : string) : client_config :=
  {| cc_base_uri := base_uri; cc_token_endpoint := "/oauth2/token";
     cc_introspection_endpoint := "/oauth2/introspect";
     cc_revocation_endpoint := "/oauth2/revoke"; cc_response_limit := 0 |}.

(** client.go:33-49 [NewClient], [NewClientWithClient]: the configuration kept. *)
Definition new_client (c : client_config) : client_config :=
  {| cc_base_uri := cc_base_uri c; cc_token_endpoint := cc_token_endpoint c;
     cc_introspection_endpoint := cc_introspection_endpoint c;
     cc_revocation_endpoint := cc_revocation_endpoint c;
     cc_response_limit := if (cc_response_limit c =? 0)%Z then 2048 else cc_response_limit c |}.

(** http.Client.Do: what comes back for a request, [None] for an error. *)
Definition transport := request -> option response.

(** net/http, server.go and transfer.go: the response as the client receives
    it if the handler wrote [w] and returned. Simplifications: the connection
    delivers every byte, and the Content-Type that is guessed for a body when
    the handler set none is left out (in /repo only the bare 200 of the
    revocation endpoint has none, and no body). *)
Definition received (w : rw) : option response :=
  match rw_sent w with
  | Some (code, h) =>
      Some {| rs_status := code;
              rs_ctype := match h !! "Content-Type" with Some (v :: _) => v | _ => "" end;
              rs_body := rw_body w; rs_clean := true |}
  | None => Some {| rs_status := 200; rs_ctype := ""; rs_body := ""; rs_clean := true |}
  end.

(** http.Client.Do against server.go:124-151 [ServeHTTP]; a panic closes the
    connection. Simplification: the client is one that does not follow
    redirects; the endpoints it is used for send none. *)
Definition connected (ev : env) (s : server) : transport :=
  fun r => match snd (serve_http ev s r new_rw) with
           | Some w => received w
           | None => None
           end.

(** client.go:53-84 [Authenticate]. *)
Definition client_authenticate (c : client_config) (do : transport) (q : token_request)
  : token_response + goerr :=
  match build_token_request (cc_base_uri c +:+ cc_token_endpoint c) q with
  | None => inr GOther
  | Some req =>
      match do req with
      | None => inr GOther
      | Some res =>
          if negb (rs_status res =? 200)%Z
          then inr (parse_request_error res (cc_response_limit c))
          else match parse_token_response res (cc_response_limit c) with
               | Some r => inl r
               | None => inr GOther
               end
      end
  end.

(** client.go:88-119 [Introspect]. *)
Definition client_introspect (c : client_config) (do : transport) (q : lookup_request)
  : introspection_response + goerr :=
  match build_introspection_request (cc_base_uri c +:+ cc_introspection_endpoint c) q with
  | None => inr GOther
  | Some req =>
      match do req with
      | None => inr GOther
      | Some res =>
          if negb (rs_status res =? 200)%Z
          then inr (parse_request_error res (cc_response_limit c))
          else match parse_introspection_response res (cc_response_limit c) with
               | Some r => inl r
               | None => inr GOther
               end
      end
  end.

(** client.go:123-148 [Revoke]; [None] is success. *)
Definition client_revoke (c : client_config) (do : transport) (q : lookup_request)
  : option goerr :=
  match build_revocation_request (cc_base_uri c +:+ cc_revocation_endpoint c) q with
  | None => Some GOther
  | Some req =>
      match do req with
      | None => Some GOther
      | Some res =>
          if negb (rs_status res =? 200)%Z
          then Some (parse_request_error res (cc_response_limit c))
          else None
      end
  end.
