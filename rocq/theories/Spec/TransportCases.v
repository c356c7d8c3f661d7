(** Concrete networks, used only to show that the theorems apply to something
    and that the wide claim is false. *)
From Verif.Model Require Import HttpClient.
From Verif.Spec Require Import Cases ClientCases TransportSpec.

Definition plain_client : http_client := default_http_client (fun _ => None).
Definition plain_reply (status : Z) (location : string) : reply :=
  {| rp_response := {| rs_status := status; rs_ctype := ""; rs_body := ""; rs_clean := true |}; rp_location := location |}.

(** A server that sends every request on to another one, over plain HTTP. *)
Definition forwarding : network := fun l =>
  match l with [_] => Some (plain_reply 307 "http://other.example/x") | _ => Some (plain_reply 404 "") end.
(** A server that redirects to another one, which redirects once more. *)
Definition twice_redirecting : network := fun l =>
  match l with
  | [_] => Some (plain_reply 302 "https://other.example/1")
  | [_; _] => Some (plain_reply 302 "/2")
  | _ => Some (plain_reply 404 "")
  end.
(** Redirects within one server, to a relative reference. *)
Definition moving : network := fun l =>
  match l with [_] => Some (plain_reply 308 "../v2/token") | _ => Some (plain_reply 404 "") end.

Definition case_password_call : call := CallAuthenticate case_token_query.
(** The server of the other cases behind the first message. *)
Definition case_network : network := fun l =>
  match l with [w] => answers (case_env 1000 (rand1 +:+ rand2)) case_server w | _ => None end.
(** A client for the same server, with a blank in the query of its endpoint. *)
Definition blank_client_config : client_config :=
  {| cc_base_uri := "https://s.example"; cc_token_endpoint := "/oauth2/token?tenant=a b";
     cc_introspection_endpoint := ""; cc_revocation_endpoint := ""; cc_response_limit := 2048 |}.
