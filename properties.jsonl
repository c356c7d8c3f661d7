{"id": "C01", "title": "Issued token strings always parse back", "statement": "For every secret and every key, ParseHS256Token(secret, HS256TokenFromKey(secret,key).String()) succeeds and returns a token with exactly that Key and Signature.", "quantifier": "all secrets and all key byte strings of every length", "why_tests_cant": "Key bytes and lengths are unbounded; tests sample a handful of random 16-byte keys, base64 has three length classes and 256^n inputs.", "anchors": ["hs256.go:ParseHS256Token", "hs256.go:HS256Token.String", "hs256.go:HS256TokenFromKey"]}
{"id": "C02", "title": "ParseHS256Token accepts exactly authentic tokens", "statement": "ParseHS256Token(secret, s) succeeds iff s consists of exactly two dot-separated segments that base64url-decode to some key k and to HMAC-SHA256(secret,k); the token returned then carries exactly these bytes. Every other string is rejected with the error for the first check that fails.", "quantifier": "all secrets and all input strings", "why_tests_cant": "The set of malformed or forged strings is infinite; tests try three.", "anchors": ["hs256.go:ParseHS256Token", "hs256.go:HS256Token.Valid", "hs256.go:HS256Token.Equal"]}
{"id": "C03", "title": "Token identity does not depend on its spelling", "statement": "Two strings accepted under the same secret denote the same token iff their decoded keys are equal, and then KeyString, SignatureString and String of the results agree; re-parsing the canonical String gives the same token again. Distinct byte strings never share a KeyString or SignatureString, so the server's lookup by SignatureString is lookup by signature bytes.", "quantifier": "all pairs of accepted strings, all secrets", "why_tests_cant": "Quantifies over pairs of strings and over all byte strings (injectivity of an encoding).", "anchors": ["hs256.go:ParseHS256Token", "hs256.go:HS256Token.SignatureString", "server.go:Server.Authorize"]}
{"id": "C04", "title": "A token has exactly one accepted spelling", "statement": "If ParseHS256Token accepts both s1 and s2 and yields the same token then s1 = s2 (what a user keeping a deny-list or log keyed on the token string relies on).", "quantifier": "all pairs of strings, all secrets", "why_tests_cant": "Uniqueness quantifies over all strings; non-canonical base64 (line breaks, non-zero trailing bits) is not in the tests.", "anchors": ["hs256.go:ParseHS256Token"]}
{"id": "C05", "title": "Token generation is all or nothing", "statement": "GenerateHS256Token(secret,n) returns a token whose key has exactly n bytes, the next n bytes of the random source, with the matching signature, iff the source can deliver n bytes; otherwise it returns an error and no token, and MustGenerateHS256Token panics in exactly those cases. This holds however the source delivers its bytes: in pieces of any size and with an error together with the last ones; each read asks for exactly the bytes that are missing.", "quantifier": "all secrets, all lengths (negative, zero, positive), all random sources (any io.Reader that obeys its contract, delivering the bytes in any pieces) and all points at which the source fails", "why_tests_cant": "The failing point of the random source ranges over all prefixes; the tests only use an empty reader.", "anchors": ["hs256.go:GenerateHS256Token", "hs256.go:MustGenerateHS256Token"]}
{"id": "C06", "title": "Signatures are 32 bytes and never empty strings", "statement": "For every secret and key the signature is HMAC-SHA256 of the key, is exactly 32 bytes long, and SignatureString is exactly 43 characters of the URL-safe alphabet; hence it never contains a dot and never equals the empty Code marker used for tokens that were not issued from an authorization code.", "quantifier": "all secrets and keys", "why_tests_cant": "Holds for all byte strings through padding and compression of arbitrary length messages.", "anchors": ["hs256.go:HS256TokenFromKey", "hs256.go:HS256Token.SignatureString", "server.go:handleAuthorizationCodeGrant"]}
{"id": "C07", "title": "ParseScope yields a normal form", "statement": "Every item of ParseScope(s) is non-empty, contains no space and has no leading or trailing (Unicode) white space; items appear in input order; ParseScope(ParseScope(s).String()) = ParseScope(s); the result is nil exactly if s consists of white space-only segments.", "quantifier": "all strings, including non-ASCII and invalid UTF-8", "why_tests_cant": "Strings are unbounded and white space includes multi-byte code points.", "anchors": ["scope.go:ParseScope", "scope.go:Scope.String"]}
{"id": "C08", "title": "Well-formed scopes survive String and ParseScope", "statement": "If every item of a scope is non-empty, contains no space and has no surrounding white space, then ParseScope(scope.String()) has exactly the same items in the same order; conversely any scope that survives has this shape.", "quantifier": "all scopes of every length", "why_tests_cant": "Lists of strings of unbounded length.", "anchors": ["scope.go:ParseScope", "scope.go:Scope.String"]}
{"id": "C09", "title": "Scope inclusion is set inclusion", "statement": "s.Contains(x) iff x is an element of s; s.Includes(t) iff every element of t is an element of s. So it is reflexive, transitive, independent of order and duplicates, the empty scope is always included, and Empty holds iff nothing is contained.", "quantifier": "all scopes", "why_tests_cant": "Universally quantified set-theoretic law.", "anchors": ["scope.go:Scope.Contains", "scope.go:Scope.Includes", "scope.go:Scope.Empty"]}
{"id": "C10", "title": "Scope JSON round trip", "statement": "Marshalling a well-formed scope of valid UTF-8 items to JSON and unmarshalling it gives back the same items; unmarshalling any JSON string gives ParseScope of that string, and any other JSON value or malformed input is an error that leaves the target unchanged (JSON null gives the empty scope).", "quantifier": "all scopes, all JSON inputs", "why_tests_cant": "JSON escaping ranges over all code points.", "anchors": ["scope.go:Scope.MarshalJSON", "scope.go:Scope.UnmarshalJSON"]}
{"id": "C11", "title": "Bearer header parsing is exact and never panics", "statement": "ParseBearerToken returns token t without error iff the Authorization header is six letters equal to 'bearer' ignoring case, one space, and t, with t non-empty; an absent or empty header gives the 401 ProtectedResource error, everything else the 400 invalid_request error. No header makes the slicing expressions go out of range.", "quantifier": "all header values", "why_tests_cant": "All strings including short and binary ones.", "anchors": ["bearer.go:ParseBearerToken"]}
{"id": "C12", "title": "Error parameters do not depend on map iteration order", "statement": "Error.Params, and the Location produced by WriteRedirect, are the same for every order in which Go iterates the parameter map.", "quantifier": "all errors / parameter maps, all iteration orders", "why_tests_cant": "Go randomises map iteration; a test sees one order per run.", "anchors": ["error.go:Error.Params", "error.go:Error.Map", "oauth2.go:WriteRedirect"]}
{"id": "C13", "title": "WWW-Authenticate challenges can be read back", "statement": "Splitting the WWW-Authenticate header written by WriteBearerError at ', ' and '=' gives back exactly the entries of Error.Map (or the single realm parameter if the map is empty).", "quantifier": "all errors with status other than 500", "why_tests_cant": "Values are arbitrary strings.", "anchors": ["bearer.go:WriteBearerError", "error.go:Error.Params", "oauth2test/utils.go:auth"]}
{"id": "C14", "title": "Errors are written with their own status", "statement": "WriteError writes exactly one response: for an *Error without RedirectURI the JSON document of its non-empty fields with the status and extra headers of the error, for any other error a 500 server_error document; WriteBearerError writes an empty body with the status and a Bearer challenge, or a bare 500 for unknown or 500 errors. The functions of the package that build errors give the codes and statuses of RFC 6749, 6750 and 7009, with the given description and nothing else, and a Basic challenge exactly for invalid_client.", "quantifier": "all error values and all prior header maps", "why_tests_cant": "Arbitrary field contents and all 2^n combinations of present fields.", "anchors": ["error.go:WriteError", "bearer.go:WriteBearerError", "oauth2.go:Write", "error.go:InvalidRequest", "error.go:InvalidClient", "error.go:InvalidGrant", "error.go:InvalidScope", "error.go:InvalidToken", "error.go:UnauthorizedClient", "error.go:UnsupportedGrantType", "error.go:UnsupportedResponseType", "error.go:UnsupportedTokenType", "error.go:ProtectedResource", "error.go:InsufficientScope", "error.go:AccessDenied", "error.go:ServerError", "error.go:TemporarilyUnavailable"]}
{"id": "C15", "title": "Sensitive responses are never cacheable", "statement": "Every response of ServeHTTP that carries an access token, refresh token, authorization code, introspection result or OAuth2 error has Cache-Control: no-store and Pragma: no-cache, and each redirect additionally Referrer-Policy: origin.", "quantifier": "all server states, all requests, all random and clock inputs", "why_tests_cant": "Must hold on every path through every handler.", "anchors": ["oauth2.go:Write", "oauth2.go:WriteRedirect", "server.go:Server.ServeHTTP"]}
{"id": "C16", "title": "Query redirects deliver the parameters", "statement": "For every ASCII redirect URI without '#' accepted by url.ParseRequestURI (RFC 3986 URIs are ASCII, RFC 6749 excludes fragments), and every parameter map, the Location written by WriteRedirect without fragment keeps scheme, authority and path of the URI, and parsing its query gives the well-formed pairs of the original query plus exactly the given parameters with their exact values.", "quantifier": "all URIs, all parameter maps, all byte strings as values", "why_tests_cant": "Escaping must be right for all 256 byte values in any combination.", "anchors": ["oauth2.go:WriteRedirect", "code.go:WriteCodeResponse"]}
{"id": "C17", "title": "Fragment redirects deliver the parameters", "statement": "A user agent that form-decodes the fragment of the Location written by WriteRedirect with useFragment (as RFC 6749 section 4.2.2 prescribes) obtains exactly the given parameters.", "quantifier": "all URIs, all parameter maps, all byte strings as values", "why_tests_cant": "Escaping must be right for all byte values; the shipped tests decode twice.", "anchors": ["oauth2.go:WriteRedirect", "token.go:WriteTokenResponse"]}
{"id": "C18", "title": "No open redirector", "statement": "Whenever ServeHTTP answers with a redirect, the redirect URI sent in the request equals the redirect URI registered for the client named in the request, and the Location is that URI with parameters added. Requests with an unknown client or another redirect URI get an error document and no Location header.", "quantifier": "all server states, all requests", "why_tests_cant": "All redirect URIs and all request shapes.", "anchors": ["server.go:authorizationEndpoint", "oauth2.go:WriteRedirect"]}
{"id": "C19", "title": "The state parameter is echoed", "statement": "Every redirect produced by the authorization endpoint, success or error, carries the state parameter of the request unchanged if it is non-empty and carries none otherwise, in the query for response type code and in the fragment for response type token.", "quantifier": "all requests, all state values", "why_tests_cant": "State is an arbitrary client-chosen string.", "anchors": ["server.go:authorizationEndpoint", "server.go:handleImplicitGrant", "server.go:handleAuthorizationCodeGrantAuthorization", "error.go:Error.SetRedirect"]}
{"id": "C20", "title": "Token, introspection and revocation requests ignore the URL query", "statement": "The result of ParseTokenRequest, ParseIntrospectionRequest, ParseRevocationRequest, and hence of those endpoints, is the same for any two requests that differ only in the well-formed query string of the URL; credentials in a URL are never honoured.", "quantifier": "all pairs of requests differing in the query string, all server states", "why_tests_cant": "Non-interference relates pairs of runs.", "anchors": ["token.go:ParseTokenRequest", "introspection.go:ParseIntrospectionRequest", "revocation.go:ParseRevocationRequest"]}
{"id": "C21", "title": "Resource owner credentials come from the POST body only; GET has no effect", "statement": "At the authorization endpoint username and password are taken from the POST body only; a GET request never issues a token or code, never redirects and never changes the server, whatever its query string contains.", "quantifier": "all server states, all requests", "why_tests_cant": "All requests and all ways of placing parameters.", "anchors": ["server.go:authorizationEndpoint", "authorization.go:ParseAuthorizationRequest"]}
{"id": "C22", "title": "Token requests round-trip between client and server", "statement": "For every TokenRequest whose client id is non-empty and contains no colon, whose grant type is non-empty, whose scope is well-formed and whose redirect URI is empty or a valid request URI, and whose form encoding has at most 10 MiB (the limit of net/http), ParseTokenRequest(BuildTokenRequest(uri, r)) succeeds with a request equal to r.", "quantifier": "all token requests", "why_tests_cant": "Nine string fields of arbitrary bytes go through two layers of escaping and base64.", "anchors": ["token.go:BuildTokenRequest", "token.go:TokenRequestValues", "token.go:ParseTokenRequest"]}
{"id": "C23", "title": "Introspection and revocation requests round-trip between client and server", "statement": "For every such request with non-empty token and a client id without colon (and not both credentials empty), with a form encoding of at most 10 MiB, parsing the built request succeeds and returns an equal request.", "quantifier": "all introspection and revocation requests", "why_tests_cant": "Arbitrary byte strings through form encoding and basic auth.", "anchors": ["introspection.go:BuildIntrospectionRequest", "introspection.go:ParseIntrospectionRequest", "revocation.go:BuildRevocationRequest", "revocation.go:ParseRevocationRequest"]}
{"id": "C24", "title": "A form-encoded redirect URI arrives unchanged", "statement": "If a client sends redirect_uri = u once form-encoded, as RFC 6749 prescribes, the parsed AuthorizationRequest and TokenRequest carry RedirectURI = u.", "quantifier": "all valid redirect URIs u", "why_tests_cant": "Quantifies over all URIs; tests use URIs without '%' and '+'.", "anchors": ["authorization.go:ParseAuthorizationRequest", "token.go:ParseTokenRequest"]}
{"id": "C25", "title": "Redirect URIs with a fragment are refused", "statement": "ParseAuthorizationRequest and ParseTokenRequest reject every redirect URI that contains a fragment component.", "quantifier": "all redirect URIs containing '#'", "why_tests_cant": "All URIs; no test uses a fragment.", "anchors": ["authorization.go:ParseAuthorizationRequest", "token.go:ParseTokenRequest"]}
{"id": "C26", "title": "HTTP Basic credentials take precedence over the body", "statement": "If the request has a well-formed Basic Authorization header, ParseTokenRequest takes client id and secret from it and ignores client_id and client_secret in the body; without one it takes both from the body; introspection and revocation requests are refused without one.", "quantifier": "all requests", "why_tests_cant": "All header and body combinations.", "anchors": ["token.go:ParseTokenRequest", "introspection.go:ParseIntrospectionRequest", "revocation.go:ParseRevocationRequest"]}
{"id": "C27", "title": "Authorize grants access exactly to live, sufficient tokens", "statement": "Server.Authorize returns true iff the bearer token is authentic under the server secret, its signature is registered as an access token, that token is not expired at the time of the check, and its scope includes the required scope; otherwise it returns false and has written the error response (400, 401 or 403) naming the first failing check; when it returns true nothing has been written.", "quantifier": "all server states, requests, required scopes and clock values", "why_tests_cant": "Decision rule over unbounded state and inputs.", "anchors": ["server.go:Server.Authorize"]}
{"id": "C28", "title": "Authorize, introspection and failed routing never change the server", "statement": "Server.Authorize, any request to the introspection endpoint, any GET to the authorization endpoint and any request to an unknown path leave all clients, users, tokens and codes unchanged.", "quantifier": "all server states and requests", "why_tests_cant": "Frame property over whole state.", "anchors": ["server.go:Server.Authorize", "server.go:introspectionEndpoint", "server.go:Server.ServeHTTP"]}
{"id": "C29", "title": "Expiry is sharp and permanent", "statement": "A stored token or code is usable up to and including its expiry instant and is refused at every later instant; with a non-decreasing clock once refused as expired it is never accepted again unless it is issued anew.", "quantifier": "all histories with non-decreasing clocks, all instants", "why_tests_cant": "All histories and all instants; boundary equality.", "anchors": ["server.go:Server.Authorize", "server.go:handleAuthorizationCodeGrant", "server.go:handleRefreshTokenGrant"]}
{"id": "C30", "title": "expires_in never overstates the lifetime", "statement": "Every token response's expires_in is AccessTokenLifespan in whole seconds rounded towards zero; an access token obtained at time t is accepted by Authorize throughout the following expires_in seconds unless revoked in between (non-negative lifespan).", "quantifier": "all configurations, all requests, all instants", "why_tests_cant": "Arithmetic over all durations and instants.", "anchors": ["server.go:issueTokens", "bearer.go:NewBearerTokenResponse"]}
{"id": "C31", "title": "Granted scopes stay within the allowed scope", "statement": "In every reachable server each access token, refresh token and authorization code has a scope included in Config.AllowedScope, and every token response announces exactly the scope stored with the token.", "quantifier": "all histories of requests from a fresh server", "why_tests_cant": "Inductive invariant over all histories.", "anchors": ["server.go:handleImplicitGrant", "server.go:handleResourceOwnerPasswordCredentialsGrant", "server.go:handleClientCredentialsGrant", "server.go:handleRefreshTokenGrant", "server.go:issueTokens"]}
{"id": "C32", "title": "Refreshing never escalates", "statement": "When the refresh_token grant succeeds the new tokens belong to the same client and the same resource owner as the presented refresh token and their scope is included in its scope (equal to it if none is requested).", "quantifier": "all server states and requests", "why_tests_cant": "All states and scopes.", "anchors": ["server.go:handleRefreshTokenGrant"]}
{"id": "C33", "title": "A refresh token can be redeemed at most once", "statement": "In every history the number of successful redemptions of a refresh token never exceeds the number of times it was issued; so a token issued once is redeemed at most once.", "quantifier": "all histories from a fresh server, all random outcomes (even repeating ones)", "why_tests_cant": "All histories; includes collisions of random keys.", "anchors": ["server.go:handleRefreshTokenGrant"]}
{"id": "C34", "title": "An authorization code can be redeemed at most once", "statement": "In every history the number of successful redemptions of an authorization code never exceeds the number of times it was issued.", "quantifier": "all histories from a fresh server, all random outcomes", "why_tests_cant": "All histories.", "anchors": ["server.go:handleAuthorizationCodeGrant"]}
{"id": "C35", "title": "Authorization codes are bound to client, redirect URI and resource owner", "statement": "The authorization_code grant succeeds only for a code that was issued by the authorization endpoint to the same client with the same redirect URI, that is unexpired and unused; the tokens get exactly the scope and resource owner approved then.", "quantifier": "all histories and requests", "why_tests_cant": "Relates two requests arbitrarily far apart in a history.", "anchors": ["server.go:handleAuthorizationCodeGrant", "server.go:handleAuthorizationCodeGrantAuthorization"]}
{"id": "C36", "title": "Replaying a code revokes the tokens issued for it", "statement": "After a token request presenting an already used authorization code, no access or refresh token issued directly for that code remains, tokens not issued for that code are untouched, and the request is refused with invalid_grant.", "quantifier": "all server states and requests, all map iteration orders", "why_tests_cant": "All states, deletion during iteration in any order.", "anchors": ["server.go:handleAuthorizationCodeGrant"]}
{"id": "C37", "title": "Replaying a code revokes everything derived from it", "statement": "After a replay of an authorization code no token obtained from that code, directly or by refreshing such tokens, is accepted any more.", "quantifier": "all histories", "why_tests_cant": "Quantifies over chains of refreshes.", "anchors": ["server.go:handleAuthorizationCodeGrant", "server.go:handleRefreshTokenGrant"]}
{"id": "C38", "title": "Confidential clients must authenticate", "statement": "If the token, introspection or revocation endpoint answers a request naming a confidential client with anything but an error, the secret presented equals the client's secret; for an unknown client or a wrong secret an otherwise well-formed request is answered 401 invalid_client with a Basic challenge and no state changes.", "quantifier": "all server states and requests", "why_tests_cant": "All clients, secrets and request shapes.", "anchors": ["server.go:tokenEndpoint", "server.go:introspectionEndpoint", "server.go:revocationEndpoint"]}
{"id": "C39", "title": "Public clients cannot use the client credentials grant", "statement": "A client_credentials request naming a non-confidential client never yields a token.", "quantifier": "all server states and requests", "why_tests_cant": "All states.", "anchors": ["server.go:handleClientCredentialsGrant"]}
{"id": "C40", "title": "No token for a resource owner without the owner's password", "statement": "In every history from a fresh server, each access token, refresh token or code with a non-empty resource owner u goes back to an earlier request that presented u's then-current password (by the password grant or the authorization endpoint) for the same client, and its scope is within the scope asked for in that request.", "quantifier": "all histories including changes of clients and users", "why_tests_cant": "Provenance over arbitrarily long chains of requests.", "anchors": ["server.go:handleImplicitGrant", "server.go:handleAuthorizationCodeGrantAuthorization", "server.go:handleResourceOwnerPasswordCredentialsGrant", "server.go:handleRefreshTokenGrant"]}
{"id": "C41", "title": "The implicit grant never yields a refresh token", "statement": "No response of the authorization endpoint contains a refresh token and no request to it changes the set of refresh tokens.", "quantifier": "all server states and requests", "why_tests_cant": "All paths.", "anchors": ["server.go:handleImplicitGrant", "server.go:issueTokens"]}
{"id": "C42", "title": "Failed requests have no effect", "statement": "If ServeHTTP answers with an OAuth2 error (document or redirect) the server state is unchanged, with two exceptions: a replayed authorization code, which only removes tokens issued for that code; and the revocation of a token that is registered both as the caller's access token and as another client's refresh token (which takes a random source that repeats a key), which only removes that access token.", "quantifier": "all server states, requests, random and clock inputs", "why_tests_cant": "Frame property on every failing path.", "anchors": ["server.go"]}
{"id": "C43", "title": "A failing random source leaves the server unchanged", "statement": "If the random source fails at any point of any request, the request panics (and writes no response), the mutex is released, and clients, users, tokens and codes are exactly as before.", "quantifier": "all server states, requests and failure points of the random source", "why_tests_cant": "Every crash point.", "anchors": ["server.go:issueTokens", "server.go:handleAuthorizationCodeGrantAuthorization", "hs256.go:MustGenerateHS256Token"]}
{"id": "C44", "title": "A client cannot affect another client's tokens", "statement": "A request authenticated as client A never removes or changes a token or code of a client B other than A.", "quantifier": "all server states and requests", "why_tests_cant": "All pairs of clients and all states.", "anchors": ["server.go:revocationEndpoint", "server.go:handleAuthorizationCodeGrant", "server.go:handleRefreshTokenGrant"]}
{"id": "C45", "title": "Revocation is effective and permanent", "statement": "After the revocation endpoint answers 200 for a token of the requesting client, Authorize rejects it, introspection reports it inactive and the refresh grant refuses it, in every continuation of the history in which the same token is not issued again.", "quantifier": "all histories before and after the revocation", "why_tests_cant": "Permanence quantifies over all continuations.", "anchors": ["server.go:revocationEndpoint", "server.go:revokeToken"]}
{"id": "C46", "title": "Revocation touches only the named token of its owner", "statement": "A revocation request removes at most the presented token, and only if it belongs to the requesting client; other tokens are untouched; an authentic but unknown token is answered 200 without any change; repeating a revocation answers 200 again and changes nothing.", "quantifier": "all server states and requests", "why_tests_cant": "All states.", "anchors": ["server.go:revocationEndpoint", "server.go:revokeToken"]}
{"id": "C47", "title": "Introspection tells the owner exactly what is stored", "statement": "For an authenticated request, introspection answers active=false exactly if the token is registered neither as access nor as refresh token, refuses with invalid_client if it belongs to another client, and otherwise reports its stored scope, client, resource owner, kind and expiry second; it never reveals data of another client's tokens.", "quantifier": "all server states and requests", "why_tests_cant": "All states.", "anchors": ["server.go:introspectionEndpoint", "introspection.go:WriteIntrospectionResponse"]}
{"id": "C48", "title": "An active introspection answer means the token is usable", "statement": "If introspection reports an access token active at some instant, Authorize accepts it at that instant for any scope within the reported scope.", "quantifier": "all server states, requests and instants", "why_tests_cant": "All instants relative to expiry.", "anchors": ["server.go:introspectionEndpoint", "server.go:Server.Authorize"]}
{"id": "C49", "title": "Credential kinds are not interchangeable", "statement": "In every history from a fresh server, Authorize accepts only tokens that were issued as access tokens, the refresh grant redeems only tokens issued as refresh tokens, and the code grant only codes issued by the authorization endpoint. A string with a valid signature that this server never gave out (say, by a server with the same secret before a restart) is refused everywhere, is reported as inactive, and revoking it changes nothing.", "quantifier": "all histories", "why_tests_cant": "All histories and all presented strings.", "anchors": ["server.go:Server.Authorize", "server.go:handleRefreshTokenGrant", "server.go:handleAuthorizationCodeGrant"]}
{"id": "C50", "title": "Authorize is determined by the visible history", "statement": "In every history from a fresh server, Authorize accepts a token at time t for scope r iff the last visible event concerning it is a response that issued it as an access token with a scope including r at a time such that it has not expired by t, and after that response there was no successful revocation of it, no replay of the authorization code redeemed by it, and no attempt of its owner to revoke it that was refused as 'wrong client' (possible only if the same key was also issued as another client's refresh token).", "quantifier": "all histories of requests and responses", "why_tests_cant": "Refinement of the whole server against an abstract event log.", "anchors": ["server.go:Server.ServeHTTP", "server.go:Server.Authorize", "server.go:issueTokens"]}
{"id": "C51", "title": "No oracle for client ids and user names", "statement": "The token, introspection and revocation endpoints answer an unknown client and a wrong client secret identically; the password grant and the authorization endpoint answer an unknown user and a wrong password identically (byte for byte).", "quantifier": "all server states and request pairs", "why_tests_cant": "Relates pairs of runs (2-safety).", "anchors": ["server.go:tokenEndpoint", "server.go:handleResourceOwnerPasswordCredentialsGrant", "server.go:handleImplicitGrant"]}
{"id": "C52", "title": "Requests are routed by the last path segment", "statement": "ServeHTTP dispatches on the part of the URL path after the last slash and on nothing else in the URL; all other paths get 404.", "quantifier": "all paths", "why_tests_cant": "All strings.", "anchors": ["server.go:Server.ServeHTTP"]}
{"id": "C53", "title": "Concurrent requests are linearizable", "statement": "For every number of goroutines calling ServeHTTP and Authorize concurrently, or assigning to the exported fields of the server with its mutex held, and every interleaving of their individual memory accesses, the resulting server state and all responses equal those of some sequential execution of the same requests and assignments in the order of lock acquisition; the lock is always released, even if a handler panics, so no schedule deadlocks.", "quantifier": "all sets of concurrent requests and assignments, all schedules", "why_tests_cant": "Number of interleavings is unbounded; the race detector samples schedules.", "anchors": ["server.go:Server.ServeHTTP", "server.go:Server.Authorize", "server.go:Server.Mutex"]}
{"id": "C54", "title": "Requests always get an answer", "statement": "For every request, ServeHTTP either writes exactly one complete response with a valid status code or panics because the random source failed (or KeyLength is negative); no other panic and no empty implicit response is possible; Authorize never panics and writes a response iff it returns false.", "quantifier": "all server states and requests", "why_tests_cant": "All paths, including redirect writes whose error is ignored.", "anchors": ["server.go", "oauth2.go:WriteRedirect"]}
{"id": "C55", "title": "Client and server agree end to end", "statement": "Client.Authenticate, Introspect and Revoke run against the Server return exactly the response (or the Error with name, description and status) that the server produced, provided the response fits into ResponseLimit and strings are valid UTF-8. Authenticate succeeds iff the conditions of the grant (C59) hold of its arguments; the token it returns is accepted by Authorize; an active introspection describes a token of the calling client; after Revoke returned nil the token is refused until it is issued again.", "quantifier": "all server states, requests, random and clock inputs", "why_tests_cant": "All values through form encoding, basic auth and JSON.", "anchors": ["client.go:Client.Authenticate", "client.go:Client.Introspect", "client.go:Client.Revoke", "error.go:ParseRequestError"]}
{"id": "C56", "title": "Token responses survive JSON", "statement": "ParseTokenResponse applied to what WriteTokenResponse writes gives back token type, access token, expires_in, refresh token, scope items and state for all valid UTF-8 values with well-formed scope, if the document fits the limit.", "quantifier": "all token responses", "why_tests_cant": "All strings.", "anchors": ["token.go:WriteTokenResponse", "token.go:ParseTokenResponse"]}
{"id": "C57", "title": "Introspection responses survive JSON", "statement": "ParseIntrospectionResponse applied to what WriteIntrospectionResponse writes gives back all fields, including the members of Extra (numbers as the nearest float64, see C71), for valid UTF-8 values with well-formed scope, if the document fits the limit; an active response with an unknown token type is refused and nothing is written.", "quantifier": "all introspection responses, including extra members of any JSON shape nested less than 10000 deep", "why_tests_cant": "All strings and integers.", "anchors": ["introspection.go:WriteIntrospectionResponse", "introspection.go:ParseIntrospectionResponse"]}
{"id": "C58", "title": "Fresh tokens do not disturb existing ones", "statement": "A request that issues credentials leaves every previously stored token and code with another signature unchanged (apart from the consumed refresh token or code); if the new keys' signatures are distinct and unused, the new tokens are all usable immediately and exactly them are added.", "quantifier": "all server states and requests", "why_tests_cant": "Frame property over whole maps.", "anchors": ["server.go:issueTokens"]}
{"id": "C59", "title": "Grants succeed exactly under their conditions", "statement": "For a well-formed request of an authenticated client: the password grant yields tokens iff user and password match and the requested scope is within AllowedScope; the client_credentials grant iff the client is confidential and the scope is allowed; the authorization_code grant iff the code is registered, unused, unexpired, issued to that client and for the presented redirect URI; the refresh_token grant iff the refresh token is registered, unexpired, of that client and covers the requested scope; a POST to the authorization endpoint for the client's own redirect URI yields a code or a token iff user and password match and the scope is allowed (each time if the random source does not fail).", "quantifier": "all server states, requests, clocks and random sources", "why_tests_cant": "An equivalence: both that nothing else is required and that nothing less suffices, for all states.", "anchors": ["server.go:handleResourceOwnerPasswordCredentialsGrant", "server.go:handleClientCredentialsGrant", "server.go:handleAuthorizationCodeGrant", "server.go:handleRefreshTokenGrant", "server.go:handleImplicitGrant", "server.go:handleAuthorizationCodeGrantAuthorization"]}
{"id": "C60", "title": "The refresh grant is determined by the visible history", "statement": "In every history from a fresh server, a well-formed refresh request of an authenticated client is answered with tokens iff the last response that issued the presented refresh token was to the same client, announced a scope covering the requested one and is not older than the refresh token lifespan, and since then the token was neither redeemed nor revoked nor was the authorization code redeemed by that response replayed (if the random source does not fail).", "quantifier": "all histories of requests and responses", "why_tests_cant": "An equivalence over unbounded histories, in terms of visible requests and answers only.", "anchors": ["server.go:handleRefreshTokenGrant", "server.go:revocationEndpoint", "server.go:handleAuthorizationCodeGrant"]}
{"id": "C61", "title": "The code grant is determined by the visible history", "statement": "In every history from a fresh server, a well-formed authorization_code request of an authenticated client is answered with tokens iff the last response of the authorization endpoint that handed out the presented code was to a request naming the same client and redirect URI, is not older than the code lifespan, and the code was not redeemed since (if the random source does not fail).", "quantifier": "all histories of requests and responses", "why_tests_cant": "An equivalence over unbounded histories, in terms of visible requests and answers only.", "anchors": ["server.go:handleAuthorizationCodeGrant", "server.go:handleAuthorizationCodeGrantAuthorization"]}
{"id": "C62", "title": "Errors survive JSON", "statement": "ParseRequestError applied to what WriteError writes for an Error without redirect gives back an Error with the same name, description, status, scope items, state, realm and URI, if the document fits the limit and all texts are valid UTF-8.", "quantifier": "all errors with any extra headers and any status that may carry a body", "why_tests_cant": "All strings and statuses, and the interplay of writer, HTTP headers and the JSON decoder.", "anchors": ["error.go:WriteError", "error.go:ParseRequestError"]}
{"id": "C63", "title": "A cut response is never mistaken for a shorter one", "statement": "If the response limit cuts off more than the final line break of a token response, introspection response or error written by this package, ParseTokenResponse and ParseIntrospectionResponse fail and ParseRequestError reports an unexpected response; no field with a truncated value is ever returned.", "quantifier": "all responses and all limits", "why_tests_cant": "Every possible cutting point of every possible document.", "anchors": ["token.go:ParseTokenResponse", "introspection.go:ParseIntrospectionResponse", "error.go:ParseRequestError"]}
{"id": "C64", "title": "The server passes the conformance suite", "statement": "If the Server and a protected resource behind Authorize are mounted behind one handler, and the oauth2test Spec describes that server truthfully (paths, clients, users, scopes, redirect URIs, stored tokens and codes and their expiry, lifespans), then oauth2test.Run reports no failed assertion and does not panic, whatever the clock reads within the lifespans and whatever the random source delivers, as long as it never repeats a signature; it completes after at most the stated number of requests. In particular the repository's own TestServer passes for every choice of generated tokens.", "quantifier": "all servers, specifications, clocks and random sources", "why_tests_cant": "A unit test runs the suite against one server, one clock and one random source.", "anchors": ["oauth2test/spec.go:Run", "oauth2test/endpoints.go", "oauth2test/grants.go", "oauth2test/general.go", "oauth2test/request.go:Do", "oauth2test/utils.go", "server.go:ServeHTTP", "server.go:Authorize", "server_test.go:TestServer"]}
{"id": "C65", "title": "A passing suite certifies the tested behaviour", "statement": "If oauth2test.Run completes without a failed assertion against any http.Handler, then the Spec had all settings Run insists on, and the handler has refused missing, malformed, unknown, expired and insufficient tokens, refused wrong clients, users, scopes, codes and refresh tokens for each enabled grant, handed out tokens with the specified scope, type and lifetime that it then accepted and reported active, refused revoked tokens and reported them inactive, given every refusal the endpoint tests ask for, and refused a used refresh token and a used code (and, with CodeReplayMitigation, the tokens of the replayed code). A handler whose answers depend only on the request never passes if a revocation endpoint is given.", "quantifier": "all handlers with any internal state, all specifications and schedules of time and randomness", "why_tests_cant": "It quantifies over all possible handlers, not over the one under test.", "anchors": ["oauth2test/spec.go:Run", "oauth2test/endpoints.go:ProtectedResourceTest", "oauth2test/endpoints.go:RevocationEndpointTest", "oauth2test/grants.go", "oauth2test/general.go"]}
{"id": "C66", "title": "Introspection is determined by the visible history", "statement": "For an authenticated introspection of a well-signed token string, the answer is decided by the requests and answers so far: it reports nothing exactly if no access or refresh token with this signature was issued and not since ended (revoked, redeemed, or struck by a replay of its code); it is the error 'wrong client' exactly if a live one belongs to another client; otherwise it reports the owner, the scope announced when the token was issued, and the issuing instant plus the lifespan, and calls it a refresh token exactly if a refresh token is live.", "quantifier": "all configurations, all histories of requests and owner actions, all introspection requests and instants", "why_tests_cant": "It ranges over all histories and relates an answer to everything that happened before.", "anchors": ["server.go:Server.introspectionEndpoint", "server.go:Server.issueTokens", "server.go:Server.revokeToken"]}
{"id": "C67", "title": "Stored secrets show only through comparison", "statement": "The answers of a server depend on a stored client secret or user password only through whether the presented strings equal it: two servers that receive the same calls, except that the owner sets other secrets that none of the presented strings tells apart, give the same answers to all calls. In particular a secret that was never presented leaves no trace in any answer.", "quantifier": "all configurations, all sequences of requests, checks and owner actions, all pairs of secrets", "why_tests_cant": "It compares two runs for every possible sequence of calls and every pair of secrets.", "anchors": ["server.go:Server.tokenEndpoint", "server.go:Server.authorizationEndpoint", "server.go:Server.revocationEndpoint", "server.go:Server.introspectionEndpoint"]}
{"id": "C68", "title": "Memory grows only with granted requests, and nothing is collected", "statement": "The server never holds more access tokens or refresh tokens than it has given token answers, nor more codes than it has given code answers, so refused or unauthenticated requests cannot fill its memory. An access or refresh token is held exactly until it is revoked, redeemed or struck by a replay (never dropped because it expired), a code forever.", "quantifier": "all configurations and all histories of requests and owner actions", "why_tests_cant": "It bounds the state after every possible history.", "anchors": ["server.go:Server.issueTokens", "server.go:Server.handleAuthorizationCodeGrantAuthorization", "server.go:Server.revokeToken"]}
{"id": "C69", "title": "Clients are isolated from each other", "statement": "What a client gets to see does not depend on what other clients do: take away all requests of other clients from a sequence of calls and the remaining calls get the same answers. This holds as long as the client presents no credential of another client, no other client replays a code of this client, and the tokens drawn for others do not coincide with its own.", "quantifier": "all configurations, all sequences of requests, checks and owner actions, all sets of clients", "why_tests_cant": "It compares the run with and without the other clients for every possible interleaving.", "anchors": ["server.go:Server.ServeHTTP", "server.go:Server.Authorize", "server.go:Server.handleAuthorizationCodeGrant", "server.go:Server.revocationEndpoint"]}
{"id": "C70", "title": "The complete flows succeed", "statement": "If a registered client sends a resource owner with the right password to the authorization endpoint with an allowed scope, the owner's browser is redirected to the registered URI with a code and the state in its query. At any later time before the code expires, whatever else happened to the server, the client library exchanges that code for tokens with the requested scope. At any later time, whatever else happened, the access token is accepted for that scope until its announced expiry and the refresh token can be exchanged. The only conditions are that nobody presents the credential in the meantime, that no equal credential is drawn, that the client still authenticates and that the random source delivers. The implicit grant delivers a token with the same guarantee in the fragment.", "quantifier": "all configurations, histories before, between and after the steps, clients, users, scopes, states, redirect URIs (ASCII, without fragment), times and random sources", "why_tests_cant": "It is a liveness statement across browser, server and client library for every interleaving with other requests.", "anchors": ["server.go:Server.ServeHTTP", "server.go:Server.Authorize", "client.go:Client.Authenticate", "code.go:WriteCodeResponse", "token.go:WriteTokenResponse", "oauth2.go:WriteRedirect"]}
{"id": "C71", "title": "Numbers in Extra are float64", "statement": "A number in Extra, at any depth, comes back as the float64 nearest to the literal that was written (ties to even, the sign of zero kept). Integers of up to 53 bits and float64 values come back exactly, as the same literal; larger integers may come back changed. If one number lies beyond the range of float64 (1.8e308), the response is sent and the client refuses all of it.", "quantifier": "all introspection responses with extra members of any JSON shape nested less than 10000 deep and number literals of up to 9000 bytes", "why_tests_cant": "It holds for every number literal: correct rounding and shortest output over all of float64.", "anchors": ["introspection.go:IntrospectionResponse.Extra", "introspection.go:WriteIntrospectionResponse", "introspection.go:ParseIntrospectionResponse"]}
{"id": "C72", "title": "A slow client does not hold up other clients", "statement": "While a client has not sent all of its request, or has not taken its response, calls of other clients go on. (False of the code: the mutex is held while the form is read and the response is written. What holds: at most one call waits for its client at any time, only calls with a form wait for the request, the memory is that of before or after the waiting call, and between waits the server needs no client.)", "quantifier": "all servers, all sets of concurrent calls and all schedules, including clients that never send or read", "why_tests_cant": "It is about schedules in which a client does nothing for an unbounded time.", "anchors": ["server.go:Server.ServeHTTP", "server.go:Server.Authorize", "token.go:ParseTokenRequest", "authorization.go:ParseAuthorizationRequest"]}
{"id": "C73", "title": "The owner's assignments are honoured", "statement": "The owner may at any time assign to Config, AccessTokens, RefreshTokens and AuthorizationCodes. In every history of requests, checks and such assignments: a well-signed token is accepted exactly if the last answer or assignment that brought it into being gave it a sufficient scope and an expiry that is not over, and it has since been neither deleted, revoked nor struck by the replay of its code; refresh tokens and codes can be exchanged under the corresponding condition. The lifespans, key length and allowed scope in force when a token is used do not matter to it, only the secret does: a token not signed with the secret in force is refused, and it is accepted again when its secret is restored.", "quantifier": "all histories of requests, checks, registrations, assignments to the configuration and to single credentials", "why_tests_cant": "It ranges over all interleavings of requests with assignments by the owner.", "anchors": ["server.go:Server", "server.go:ServerConfig", "server.go:ServerCredential", "server.go:Server.Authorize", "server_test.go:TestServer"]}
{"id": "C74", "title": "Expiry counts the time that passes, not the wall clock", "statement": "A token, refresh token or code is over exactly when more than its life has passed since it was made, even if the wall clock was set forwards or backwards meanwhile: two sequences of calls that differ only in what the wall clock showed get the same answers, except for the time of expiry that introspection reports. That time is what the wall clock showed when the token was made plus its life, in whole seconds. If the wall clock is never set, all answers are as if there were only one clock. (Dates from 1885 to 2157, where Go keeps the monotonic reading; the last two parts hold for all dates.)", "quantifier": "all sequences of requests, checks and registrations and all readings of the wall clock and of the monotonic clock", "why_tests_cant": "It ranges over all clock readings, including clocks that are set between any two calls, and all histories.", "anchors": ["server.go:Server.Authorize", "server.go:Server.handleAuthorizationCodeGrant", "server.go:Server.handleRefreshTokenGrant", "server.go:Server.issueTokens", "server.go:Server.introspectionEndpoint", "server.go:ServerCredential"]}
{"id": "C75", "title": "Request parameters are what the client wrote", "statement": "A form text has one reading: fields separated by & or ;, empty fields skipped, key and value separated by the first =, + for a blank and %XY for a byte. If the query and (for POST, PUT and PATCH with the form content type) the body can be read so, ParseTokenRequest, ParseIntrospectionRequest and ParseRevocationRequest succeed exactly under their conditions and return the first values of the body, ParseAuthorizationRequest those of the body before those of the query. If a text or the content type is malformed (also if a parameter of it comes twice), or the body is missing, breaks off before its end or exceeds 10 MiB, every endpoint answers 400 invalid_request and the server stays as it is. A body of another content type is not looked at.", "quantifier": "all requests: methods, queries, bodies, ways in which a body ends, content types", "why_tests_cant": "The claim ranges over all byte strings a client may send and all points at which a body may break off.", "anchors": ["token.go:ParseTokenRequest", "authorization.go:ParseAuthorizationRequest", "introspection.go:ParseIntrospectionRequest", "revocation.go:ParseRevocationRequest", "server.go:Server.ServeHTTP"]}
{"id": "C76", "title": "A client sends its secrets to the configured server only", "statement": "Authenticate, Introspect and Revoke send what they are given (client secret, password, code, tokens) to the configured server and to no other. (False of the code: the http.Client follows redirects. After 307 and 308 the parameters go wherever the answer leads, also from https to http; the client secret goes along to the same port of the same host or of one below it, and after a second redirect to any server. What holds: the first message goes to the configured endpoint with exactly the given data; another one follows only a redirect and goes where it leads; after 301, 302 and 303 it has no parameters; it tells the address before, without the user part of it and not from https to http; all stay at the server if the redirects do, and always with an http.Client that does not follow them; there are at most ten; the result is what the last answer says.)", "quantifier": "all configurations, calls, http.Clients (any CheckRedirect) and all behaviours of the servers that are reached", "why_tests_cant": "It ranges over all answers that any server on the way may give.", "anchors": ["client.go:Client.Authenticate", "client.go:Client.Introspect", "client.go:Client.Revoke", "client.go:NewClient", "client.go:NewClientWithClient", "token.go:BuildTokenRequest", "introspection.go:BuildIntrospectionRequest", "revocation.go:BuildRevocationRequest"]}
{"id": "C77", "title": "A call of the client is one request, and it arrives as built", "statement": "Against a server of this package, Authenticate, Introspect and Revoke each send exactly one request, to the configured endpoint; the server's handler sees the method, path, query, credentials and body that were built, and the result is determined by that one answer, whatever the client does with redirects. The endpoint must be an http or https URI with a host, a path and no blank in its query (with a blank, every call fails with an error). If no client name and secret are given, the user part of the URI is sent in their place.", "quantifier": "all endpoint URIs, requests, server states, environments, http.Clients", "why_tests_cant": "It ranges over all URIs (escaped paths, ports, user parts, queries) and all server states.", "anchors": ["client.go:Client.Authenticate", "client.go:Client.Introspect", "client.go:Client.Revoke", "token.go:BuildTokenRequest", "server.go:Server.ServeHTTP"]}
{"id": "C78", "title": "The default client and the default server fit together", "statement": "For a base URI with http or https and a host, and without query and fragment, the endpoints of NewClient(Default(base)) lead to those of a server mounted at /oauth2 below it. Its limit of 2048 bytes never cuts off an error of the server: the caller gets name, description and status as answered. With keys of at most 16 bytes (the default) a token response with a scope of at most 150 bytes reaches the caller whole, and so does an introspection response whose names and scope have at most 250 bytes together. Revoke returns nil exactly if the server revoked.", "quantifier": "all base URIs, calls, http.Clients, server states, environments", "why_tests_cant": "The claim ranges over all base URIs and over all answers in all reachable states.", "anchors": ["client.go:Default", "client.go:NewClient", "client.go:NewClientWithClient", "client.go:Client.Authenticate", "client.go:Client.Introspect", "client.go:Client.Revoke", "server.go:DefaultServerConfig"]}
{"id": "C79", "title": "A client takes from an answer exactly what it says", "statement": "Whatever a server answers, Authenticate and Introspect return a response exactly if the status is 200, the content type is application/json (any case, with any parameters but none twice), the body did not break off and is a JSON text (RFC 8259, at most 10000 levels) whose known members have the right types; its fields are the values of those members: found by name up to the case of letters, the last one that is not null, with escapes resolved and all other members ignored. With any other status they, and Revoke, return the error the body says, with that status, or an error without name. A text has only one reading.", "quantifier": "all answers: status codes, content types, bodies, limits; in the extra members of an introspection response, numbers of at most 9000 bytes (always so if the limit is at most 9000; the default is 2048)", "why_tests_cant": "The claim ranges over all byte strings a server may send.", "anchors": ["client.go:Client.Authenticate", "client.go:Client.Introspect", "client.go:Client.Revoke", "token.go:ParseTokenResponse", "introspection.go:ParseIntrospectionResponse", "error.go:ParseRequestError", "scope.go:Scope.UnmarshalJSON"]}
{"id": "C80", "title": "What a request does does not depend on whether its answer can be delivered", "statement": "Whatever http.ResponseWriter a handler is given - one that fails, breaks off in the middle of the body or panics at any call - the request changes the server exactly as with a working one, and the calls on the writer are the same up to the first panic: all headers, then one status, then the whole body in one call. A client whose connection breaks sees the status, the headers and a prefix of the body. Authorize decides independently of the writer too. Write, WriteRedirect, WriteError, WriteTokenResponse, WriteCodeResponse, WriteIntrospectionResponse and WriteBearerError write one such answer and return the writer's error, or write nothing and return an error, exactly if the redirect URI cannot be parsed or the token type is unknown.", "quantifier": "all response writers (any state, any reaction to any call), requests, server states, environments, responses and errors with a status from 100 to 999", "why_tests_cant": "A test uses one recorder; the claim ranges over all points at which a connection may fail.", "anchors": ["server.go:Server.ServeHTTP", "server.go:Server.Authorize", "oauth2.go:Write", "oauth2.go:WriteRedirect", "error.go:WriteError", "token.go:WriteTokenResponse", "code.go:WriteCodeResponse", "introspection.go:WriteIntrospectionResponse", "bearer.go:WriteBearerError"]}
{"id": "C81", "title": "What a client gets that repeats a request after losing the answer", "statement": "If the same request is sent again: a refusal is repeated and changes nothing more; an introspection is answered the same and a revocation 200 again. A repeated refresh is refused with invalid_grant and changes nothing: the tokens whose answer was lost cannot be had. A repeated redemption of a code is refused with invalid_grant and removes the tokens issued the first time. Password, client credentials and implicit requests give further tokens with the same scope, state, redirect URI and lifespan, and authorization requests a further code, while what was issued first stays (unless the same key is drawn again).", "quantifier": "all requests, server states, times and random bytes of the second attempt (for a repeated refusal: of both attempts alike)", "why_tests_cant": "A crash or a lost answer can happen at any request in any state.", "anchors": ["server.go:Server.ServeHTTP", "server.go:handleRefreshTokenGrant", "server.go:handleAuthorizationCodeGrant", "server.go:handleResourceOwnerPasswordCredentialsGrant", "server.go:handleClientCredentialsGrant", "server.go:handleImplicitGrant", "server.go:revocationEndpoint", "server.go:introspectionEndpoint"]}
{"id": "C82", "title": "An answer depends only on what the request mentions", "statement": "A request mentions a client, for some requests a user, and the code or tokens it presents. Two servers with the same configuration that hold the same data under the names a request mentions give the same answer to it, whatever else they hold, and everything they held alike before the request they hold alike after it. The same holds for Authorize with the bearer token and for any number of calls one after another: data the calls do not mention never influences an answer.", "quantifier": "all pairs of server states, requests, times, random bytes and response writers; all sequences of requests, authorizations and changes of clients and users", "why_tests_cant": "The absence of an influence is a statement about all pairs of states; a test compares two.", "anchors": ["server.go:Server.ServeHTTP", "server.go:Server.Authorize", "server.go:authorizationEndpoint", "server.go:tokenEndpoint", "server.go:revocationEndpoint", "server.go:introspectionEndpoint"]}
{"id": "C83", "title": "Requests that do not concern each other can be exchanged", "statement": "If two calls each leave alone what the other mentions, and what they hand out is new and different, then it does not matter which comes first: both get the answers they would get alone, and the server ends in the same state. Two requests are independent in this sense when they present different codes and tokens, neither repeats a used code, and the new tokens are new; they may name the same client and user. The same holds for any number of calls that are independent of each other, in any order and concurrently: under every schedule each is answered as if it had been made alone, and the server ends in the same state.", "quantifier": "all server states, all sets of pairwise independent calls (requests, authorizations, changes of clients and users) with any times and random bytes, all orders and schedules", "why_tests_cant": "Requests can meet in any state, in any order and under any schedule.", "anchors": ["server.go:Server.ServeHTTP", "server.go:Server.Authorize", "server.go:tokenEndpoint", "server.go:authorizationEndpoint", "server.go:revocationEndpoint"]}
{"id": "C84", "title": "Every refusal carries the error of the first condition that failed", "statement": "The token endpoint answers a malformed request or an unknown grant type with 400 invalid_request, an unknown client or wrong client secret with 401 invalid_client, a wrong password with 403 access_denied, a scope that is not allowed with 400 invalid_scope, the client credentials grant of a public client with 401 invalid_client, a code or refresh token that is no token of this server with 400 invalid_request, and one that is unknown, used, expired, of another client or for another redirect URI with 400 invalid_grant. The introspection and revocation endpoints answer a malformed request with 400 invalid_request, an unknown hint with 400 unsupported_token_type, an unknown client with 401 invalid_client, a string that is no token of this server with 400 invalid_request and a token of another client with 401 invalid_client. The authorization endpoint answers a malformed request, an unknown response type or a wrong redirect URI with 400 invalid_request and an unknown client with 401 invalid_client; after that it sends invalid_scope or access_denied, with the state, to the registered redirect URI. The checks are made in this order, and there are no other refusals.", "quantifier": "all requests, server states, times and random bytes", "why_tests_cant": "Which of several wrong things is reported, and that nothing else is ever reported, is a claim about all requests in all states.", "anchors": ["server.go:Server.ServeHTTP", "server.go:authorizationEndpoint", "server.go:tokenEndpoint", "server.go:revocationEndpoint", "server.go:introspectionEndpoint", "server.go:handleImplicitGrant", "server.go:handleAuthorizationCodeGrantAuthorization", "server.go:handleResourceOwnerPasswordCredentialsGrant", "server.go:handleClientCredentialsGrant", "server.go:handleAuthorizationCodeGrant", "server.go:handleRefreshTokenGrant"]}
{"id": "C85", "title": "The helpers send exactly what they were given", "statement": "For any response, error or request a program builds: Map of a token response, code response or error has exactly the documented keys, an optional one just if it is set. WriteTokenResponse and WriteIntrospectionResponse write status 200, the headers of a document and a JSON object with exactly the set fields as members, each once; an active introspection response of an unknown token type is refused and nothing is written. With a redirect URI the token response goes into the fragment, the code response into the query and the error where it says, to the same target, after the parameters the URI already has; SetRedirect replaces the state and nothing else. The form of a token, introspection or revocation request has exactly the set fields, the redirect URI encoded once more. The Known functions accept exactly the names of the RFCs, Valid holds just if the signature is the HMAC of the key, and the text of an error gives its name and description.", "quantifier": "all token, code and introspection responses, errors and requests whose texts are UTF-8; for redirects all absolute ASCII redirect URIs without fragment", "why_tests_cant": "A field may be dropped, renamed or duplicated for some combination of values; there are infinitely many.", "anchors": ["token.go:TokenResponse.Map", "token.go:WriteTokenResponse", "token.go:TokenResponse.SetRedirect", "token.go:TokenRequestValues", "bearer.go:NewBearerTokenResponse", "code.go:CodeResponse.Map", "code.go:WriteCodeResponse", "error.go:Error.Map", "error.go:Error.SetRedirect", "error.go:WriteError", "error.go:Error.String", "introspection.go:WriteIntrospectionResponse", "introspection.go:IntrospectionRequestValues", "revocation.go:RevocationRequestValues", "oauth2.go:KnownGrantType", "oauth2.go:KnownResponseType", "oauth2.go:KnownTokenType", "hs256.go:HS256Token.Valid", "hs256.go:HS256Token.Equal"]}
{"id": "C86", "title": "Token signatures are HMAC-SHA256 as in the standards", "statement": "The signature of HS256TokenFromKey(secret, key) is the HMAC of RFC 2104 with SHA-256 of FIPS 180-4 under the secret, for secrets and keys of every length: also where the secret is longer than a block or the padding needs another block. Valid holds exactly for such signatures, and ParseHS256Token accepts exactly the strings that carry one, so tokens can be checked by any other implementation of the standards.", "quantifier": "all secrets, keys, messages and token strings", "why_tests_cant": "Test vectors cover a few lengths; an error at one block boundary or in one constant shows only for some inputs.", "anchors": ["hs256.go:HS256TokenFromKey", "hs256.go:HS256Token.Valid", "hs256.go:ParseHS256Token"]}
{"id": "C87", "title": "Checking a signature takes the same steps wherever it differs", "statement": "HS256Token.Equal runs in constant time, as its documentation says: the branches it takes and the positions it reads depend on the lengths of the two signatures only, and it returns true exactly for equal ones. The same holds of Valid, including the computation of the signature (lengths of secret, key and signature), and of the check in ParseHS256Token, where all refusals of tokens with a key and a signature of the same length look alike, whatever the secret is.", "quantifier": "all secrets, keys and signatures, and all pairs of them", "why_tests_cant": "A comparison that stops early returns the same results; only the steps differ, and for every pair of inputs.", "anchors": ["hs256.go:HS256Token.Equal", "hs256.go:HS256Token.Valid", "hs256.go:ParseHS256Token"]}
{"id": "C88", "title": "Comparing a presented secret tells only whether it is right", "statement": "The steps the server takes to compare a presented client secret or password with the stored one depend only on whether they are equal. (False of the code, which compares strings with == and !=: a wrong secret of the right length is compared up to the first piece that differs. What holds: a secret of another length shows nothing but that, and one of the right length exactly the number of that piece.)", "quantifier": "all stored and presented secrets, all sizes of the pieces that are compared at once", "why_tests_cant": "The result is the same; the steps have to be compared for all pairs of secrets.", "anchors": ["server.go:Server.ServeHTTP", "server.go:handleImplicitGrant", "server.go:handleAuthorizationCodeGrantAuthorization", "server.go:tokenEndpoint", "server.go:handleResourceOwnerPasswordCredentialsGrant", "server.go:introspectionEndpoint", "server.go:revocationEndpoint"]}
{"id": "C89", "title": "Revoking or introspecting an invalid token is no error", "statement": "An authenticated client that revokes an invalid token is answered 200 (RFC 7009, section 2.2), and one that introspects a token that is unknown, inactive or not its own is answered 200 with active=false (RFC 7662, section 2.2). (False of the code: a string that is no token of this server is answered 400 invalid_request by both endpoints, and the introspection of another client's token 401 invalid_client. What holds: the answer is 200 exactly for authentic tokens that do not belong to another client, and a token that is authentic but unknown is reported inactive.)", "quantifier": "every state of the server, authenticated complete request and token string", "why_tests_cant": "token strings are unbounded and the standard speaks of all invalid ones", "anchors": ["server.go:introspectionEndpoint", "server.go:revocationEndpoint", "hs256.go:ParseHS256Token"]}
{"id": "C90", "title": "Requests that repeat a parameter or authenticate twice are refused", "statement": "A request that gives a parameter more than once, or authenticates its client in the header and in the body, is refused with invalid_request (RFC 6749, sections 2.3, 3.1, 3.2, 5.2). (False of the code: both are answered with tokens. What holds: the first one counts. A request with repetitions behind the first occurrences, in the body and the query, is treated at every endpoint as the request without them; with a Basic header, client_id and client_secret in the body change nothing.)", "quantifier": "every server, request with readable form data, and set of added repetitions", "why_tests_cant": "which of several values counts has to hold for every request and every position of the repetition", "anchors": ["token.go:ParseTokenRequest", "authorization.go:ParseAuthorizationRequest", "introspection.go:ParseIntrospectionRequest", "revocation.go:ParseRevocationRequest"]}
{"id": "C91", "title": "Client id and secret are form-encoded in the Basic header", "statement": "A client that encodes its id and secret as form data before it puts them into the Basic header (RFC 6749, section 2.3.1) is recognised by the server, and the headers of BuildTokenRequest, BuildIntrospectionRequest and BuildRevocationRequest are of this form. (False of the code: neither side encodes or decodes. A client whose secret has a percent sign is answered 401 invalid_client if it follows the standard. What holds: headers in which the encoding changes nothing are recognised; the server takes id and secret exactly as they are in the header, and the client writes them as they are.)", "quantifier": "every client id, secret, server and request", "why_tests_cant": "the two readings agree on the usual ids and secrets, so examples do not show the difference", "anchors": ["token.go:ParseTokenRequest", "token.go:BuildTokenRequest", "introspection.go:BuildIntrospectionRequest", "revocation.go:BuildRevocationRequest"]}
{"id": "C92", "title": "The client credentials grant gives no refresh token", "statement": "The response to a client credentials grant has no refresh token (RFC 6749, section 4.4.3). (False of the code: it has one. What holds: every successful answer of the token endpoint has a refresh token, stored for the requesting client unless the random source repeated an existing one, and no answer of the authorization endpoint has one.)", "quantifier": "every state, request and random source", "why_tests_cant": "has to hold for every request in every state", "anchors": ["server.go:handleClientCredentialsGrant", "server.go:issueTokens"]}
{"id": "C93", "title": "The token endpoint answers errors as RFC 6749 says", "statement": "Every error of the token endpoint is one of the codes of RFC 6749, section 5.2, is true of the request and has the status given there. (False of the code in five cases: an unknown grant type is answered invalid_request, a wrong password 403 access_denied, a public client that uses the client credentials grant invalid_client, and a code or refresh token that is no token of this server invalid_request. What holds: all other errors conform, these five always occur as described, and never conform; every answer with status 401, and no other, has a Basic challenge.)", "quantifier": "every state, request and time", "why_tests_cant": "the set of wrong requests is unbounded and the errors depend on the order of checks", "anchors": ["server.go:tokenEndpoint", "server.go:handleResourceOwnerPasswordCredentialsGrant", "server.go:handleClientCredentialsGrant", "server.go:handleAuthorizationCodeGrant", "server.go:handleRefreshTokenGrant", "error.go:Error"]}
{"id": "C94", "title": "The authorization endpoint tells the client about errors", "statement": "Errors of the authorization endpoint are sent to the client's redirect URI, with the codes of RFC 6749, section 4.1.2.1, unless the client or the redirect URI is the thing that is wrong; and a client with a registered redirect URI may leave it out (section 3.1.2.3). (False of the code: an unknown or missing response type is answered by an invalid_request document to the user agent, and so is a missing redirect URI. What holds: nothing is ever sent to a redirect URI unless the client is known and the URI is its registered one; if so, every POST with a known response type is answered by a redirect.)", "quantifier": "every state, request, time and random source", "why_tests_cant": "the set of wrong requests is unbounded and where the error goes depends on the order of checks", "anchors": ["server.go:authorizationEndpoint", "authorization.go:ParseAuthorizationRequest", "server.go:handleImplicitGrant", "server.go:handleAuthorizationCodeGrantAuthorization"]}
{"id": "C95", "title": "Revoking a refresh token ends its access tokens", "statement": "After a refresh token was revoked, the access tokens of the same grant are refused (RFC 7009, section 2.1). (False of the code: they are accepted until they expire. What holds: a revocation changes what Authorize answers, and which refresh tokens are known, for the named token and for no other.)", "quantifier": "every state, revocation and later request with a bearer token", "why_tests_cant": "has to hold for every other token in every state", "anchors": ["server.go:revocationEndpoint", "server.go:revokeToken", "server.go:Authorize"]}
{"id": "C96", "title": "A second use of a refresh token ends its successors", "statement": "If a refresh token is presented again after it was exchanged, the tokens that replaced it are revoked (refresh token rotation as in RFC 6819, section 5.2.2.3). (False of the code: they stay valid. What holds: every request with a refresh token that is not registered, a used one in particular, is refused with 400 invalid_grant, or invalid_request if the string is no token of the server, and leaves the server as it is.)", "quantifier": "every state, request, time and random source", "why_tests_cant": "concerns all histories in which a token is stolen and used twice", "anchors": ["server.go:handleRefreshTokenGrant", "README.md:Specifications"]}
{"id": "C97", "title": "Answers keep to the grammar of the standards", "statement": "Every access token, refresh token and code the server issues is a b64token (RFC 6750, section 2.1), so that it needs no quoting in a header; every error code and error description consists of the characters RFC 6749, section 5.2, allows; every announced scope is a list of scope-tokens (section 3.3) if the configured scopes are; the token type is bearer; and the documents of the token endpoint and all error documents carry these values as they are.", "quantifier": "every history, request, time and random source", "why_tests_cant": "the texts come from the request, the random source and the stored state, in all combinations", "anchors": ["hs256.go:String", "server.go:issueTokens", "error.go:Error", "token.go:TokenResponse", "scope.go:String"]}
{"id": "C98", "title": "What is accepted was given out before, or the hash is broken", "statement": "In every history from a fresh server: the token in a request that Authorize accepts is, up to the spelling of its base64, one that an earlier answer of this server contained as its access token. The same holds of a refresh token that is exchanged (as the refresh token of an earlier answer), of a code that is redeemed (as the code of an earlier redirect) and of a token about which introspection reports anything. The only other possibility is that the presented key differs from the issued one and the computation of the two signatures, with the server's secret, exhibits two different messages with the same SHA-256. So nothing is accepted that was not handed out, unless a collision was found.", "quantifier": "every history, request, time, secret and random source", "why_tests_cant": "forged strings are infinitely many, and that none of them is accepted depends on the whole history; the reduction to collisions cannot be tested at all", "anchors": ["hs256.go:ParseHS256Token", "hs256.go:HS256Token.Valid", "server.go:Authorize", "server.go:handleRefreshTokenGrant", "server.go:handleAuthorizationCodeGrant", "server.go:introspectionEndpoint"]}
{"id": "C99", "title": "Tokens are exactly what the random source delivers, signed", "statement": "Every access token and code in an answer is the canonical spelling of the first KeyLength bytes the random source delivers during the request together with their signature; a refresh token is that of the KeyLength bytes that follow. So no byte is used twice in a request, nothing of the request, the time or the history goes into a token, and two tokens are equal only if the same bytes were delivered. Which bytes the source delivers changes nothing else: with any other bytes of the same number the request gets the same answer but for the tokens, and every key is given out if it is delivered. (So tokens are as hard to guess as the bytes of the source.)", "quantifier": "every state, request, time and random source", "why_tests_cant": "ranges over all sources and compares pairs of executions", "anchors": ["hs256.go:GenerateHS256Token", "hs256.go:MustGenerateHS256Token", "server.go:issueTokens", "server.go:handleAuthorizationCodeGrantAuthorization"]}
{"id": "C100", "title": "Answers are read to their end however they arrive", "statement": "ParseTokenResponse, ParseIntrospectionResponse and ParseRequestError give for a body that arrives in any pieces, with the end of the file after or together with the last piece, or failing after it, the result for the body as a whole, and no other result. For any body whatever: a token or introspection response is only returned if no call of Read failed, it is the one spelled by exactly the bytes taken from the body, and never more bytes are taken than the limit; a request error is the one spelled by the bytes taken, even if reading failed. If every call of Read delivers a byte or an error, at most as many calls as the limit and one more are made, whatever the buffers, so that the functions return; a body that delivers neither is read forever.", "quantifier": "every reader (any states, any pieces, any buffers), body, content type and limit", "why_tests_cant": "ranges over all readers and all ways to cut a body into pieces", "anchors": ["token.go:ParseTokenResponse", "introspection.go:ParseIntrospectionResponse", "error.go:ParseRequestError"]}
{"id": "C101", "title": "Requests are read to their end however they arrive", "statement": "The form of a request whose body arrives in any pieces, with the end of the file or a failure after or together with the last piece, is that of the body as a whole, and no other: it is refused if reading fails or the body is over 10 MB, and never cut. Whatever a body does, the form is that of bytes it delivered, and at most one byte more than 10 MB is taken from it. If every call of Read delivers a byte or an error, reading comes to an end. The server's answer depends on the body only through this form.", "quantifier": "every reader (any states, any pieces, any buffers), body, request and state of the server", "why_tests_cant": "ranges over all readers and all ways to cut a body into pieces", "anchors": ["token.go:ParseTokenRequest", "authorization.go:ParseAuthorizationRequest", "introspection.go:ParseIntrospectionRequest", "revocation.go:ParseRevocationRequest"]}
