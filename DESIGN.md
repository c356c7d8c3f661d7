# Formal model of 256dpi/oauth2 in Rocq (Coq 8.16.1)

This file says what is modelled, how each property of `properties.jsonl` is
stated and proved, and what has to be trusted.

## 1. Approach

The package is modelled function by function as total, executable Gallina
functions on byte strings (`Coq.Strings.String.string`, a sequence of 8-bit
characters, is exactly a Go string). Nothing is axiomatised: HMAC-SHA256,
base64, URL escaping, `net/url` parsing and printing, form parsing, JSON
encoding and decoding and the Go map/slice semantics the code depends on are
all defined and can be run with `vm_compute`.

Conventions:

* A Go `error` result becomes a value; a panic (slice out of range, nil
  dereference, `panic(err)`) is an explicit result that carries the server
  state at that point.
* A nil slice is distinguished from an empty one where the code does so
  (`Scope` is `option (list string)`).
* `map[string]T` is `gmap string T` (std++). `range` over a map is a fold over
  a list of its entries; wherever the order could matter a theorem quantifies
  over all permutations.
* `time.Time` is an instant in nanoseconds since the Unix epoch in `Z`,
  `time.Duration` is `Z` nanoseconds. Every call site of `time.Now()` within a
  request reads its own instant from the request's environment, so no relation
  between the readings is assumed unless a theorem says so. Go's `time.Time`
  has two parts, wall clock and monotonic reading; `Time.v` and `Clock.v` model
  both, and C74 says when the single number is exact.
* `crypto/rand` is a byte string per request: the bytes the source delivers
  before it fails. All failure points are therefore covered.
* A handler ends in exactly one call of a `Write...` function. The model's
  handler returns the argument of that call (`outcome`), `ServeHTTP` performs it
  on a response writer (header map, status, body bytes).

## 2. Files

See section 6 for the list with the parts of the code each file models.

## 3. Properties

One line per property: what is modelled, how it is proved.

| id | model | proof |
|----|-------|-------|
| C01 | `hs256.go`, base64 RawURL | encode/decode round trip by induction in steps of 3 bytes |
| C02 | same | iff by case analysis over the checks, independent description of "decodes to" |
| C03 | same | injectivity of encode from C01's round trip |
| C04 | same | false: `_refuted` by a concrete pair of spellings; `_partial` for canonical strings |
| C05 | random source as a finite byte string, and as any `io.Reader` (`Reader.v`) | case analysis; induction over the loop of `io.ReadFull` |
| C06 | concrete SHA-256/HMAC | length lemma of the digest, base64 length |
| C07, C08, C09 | `scope.go`, `strings.Split/TrimSpace/Join` with UTF-8 white space | induction on strings/lists |
| C10 | `Scope.MarshalJSON/UnmarshalJSON` over the JSON model | JSON string round trip; exact for every text with `TextSpec` |
| C11 | `bearer.go` with panicking slices | iff, case analysis |
| C12 | `Error.Params`, `WriteRedirect` | sorted permutations are unique |
| C13 | `WriteBearerError` | partial: values without quotes or backslashes; `_refuted` for a value with a quote; `C13_challenge_exact`: readable exactly for those values |
| C14 | `WriteError`, `WriteBearerError`, `Write` on the response writer; the functions that build errors | symbolic evaluation |
| C15, C18, C19 | `ServeHTTP` down to header map | case analysis of all outcomes |
| C16 | `net/url` model | escape/unescape round trip, parse of printed URL |
| C17 | same | false: the fragment is escaped twice; `_refuted` witness and `_partial` theorem |
| C20, C21, C26 | `ParseForm`, `BasicAuth` | non-interference by rewriting |
| C22, C23 | `Build...Request`, `Parse...Request` | composition of codec round trips |
| C24 | double unescape of `redirect_uri` | false: `_refuted`; `_partial` for URIs without `%` and `+` |
| C25 | `ParseRequestURI` never fills `Fragment` | false: `_refuted`; `_partial`; `_exact`: which redirect URIs stay accepted with a fragment |
| C27, C28 | `Server.Authorize` | iff by case analysis |
| C29, C30 | expiry arithmetic | `lia`, plus induction over histories |
| C31, C40, C49 | `step` over operations | invariants by induction over histories |
| C32, C35, C36, C38, C39, C41, C42, C43, C44, C46, C47, C51, C54, C58, C59 | handlers of `server.go` | case analysis of a single request for every state |
| C33, C34 | histories | counting invariant |
| C37 | refresh drops the code | false: `_refuted`; `_partial` for direct tokens; refreshed tokens always survive |
| C44 | replay by another client | false in one case: `_refuted`; `_partial` excludes replays; `_exact` covers all requests |
| C45, C50, C60, C61, C66 | histories | refinement to an event log |
| C73 | histories with assignments to all exported fields (`Owner.v`) | refinement to an event log, one generic induction |
| C74 | `time.Time` with its two clocks (`Time.v`) and the server with it (`Clock.v`) | arithmetic on the representation; `Clock.v` refines `Server.v` under two views of a time |
| C75 | `Request.ParseForm` with `url.ParseQuery` and `mime.ParseMediaType`, and the four request parsers | the parsers are shown equivalent to an inductive reading of the text and a grammar of content types (`MediaProofs`), by induction on the text |
| C76 | `http.Client.Do` of Go 1.16 with its redirects: messages, `redirectBehavior`, `URL.ResolveReference`, header copying, `CheckRedirect` (`HttpClient.v`) | false: witnesses for 307 and for two 302; the parts that hold by induction on the chain of requests, for every network |
| C77 | as C76, and the way of a message to the handler (`URL.RequestURI`, request line, `ParseRequestURI`) | printing and parsing the target is inverse; the endpoints never answer with a redirect, so the chain has one element |
| C78 | `Default`, `NewClient` (`Client.v`) with the server and the transport of C77 | parsing a base URI and a path behind it; every error the endpoints can answer is a constant whose document is short; lengths of JSON strings, decimals and tokens bound the other documents |
| C79 | `Json.v` (scanner, unquote, storing of members), `Client.v`, content types (`Http.v`) | grammar of RFC 8259 as an inductive relation with its value, and equality with the parser by induction over fuel and over the derivation (`JsonText`); the nearest float64 is unique (`NearestFacts`); one lemma per type of member (`DocumentFacts`) |
| C80 | `Writer.v`: every function that writes, and every handler, statement by statement on an arbitrary response writer (state type and reaction to each call are parameters) | each function equals a fixed list of calls (`sends`); the handlers refine `Server.handle`, state included, also when a call panics; `net_http` gives the writer of the other files |
| C81 | `Server.v` | two calls of `handle`, by the cases of `Steps.handled` |
| C82 | `Server.v`, `History.v` | the endpoints run side by side on two servers; one entry at a time |
| C83 | the same | from C82: each entry is changed by at most one of the calls, or by both alike; independence survives calls that are independent of both, so by induction for any permutation; goroutines by C53 |
| C84 | `ServeHTTP`, all endpoints | one constructor per refusal in `RefusalSpec.v`; case analysis of the handlers in both directions: each refusal is answered with its document, and each error document comes from one of them |
| C85 | `Map`, the `Write` functions, `SetRedirect`, the `Values` functions, `Known` functions, `Valid`, `Equal`, `String` | the members and parameters as relations in `HelperSpec.v`; lookup lemmas for each map; composed with the JSON round trip and C16, C17 |
| C86 | `crypto/sha256`, `crypto/hmac` as `hs256.go` uses them | FIPS 180-4 and RFC 2104 as relations in `HashSpec.v` (bits, roots of primes, recurrences); the model satisfies them and they determine the result |
| C87 | `crypto/subtle`, `crypto/hmac`, `crypto/sha256` with the branches and reads they make | the list of steps is a function of the lengths, by induction over the bytes; the results are those of `Hs256.v` |
| C88 | `==` of strings as comparison in pieces | false of the code: witness for every size of the pieces; what shows is characterised exactly |
| C89 | the refusals of C84 against RFC 7009 and RFC 7662 | false of the code: witnesses; the tokens answered 200 are characterised exactly |
| C90 | form data of C75 with repetitions; Basic header and body | false of the code: witnesses; proved that repetitions and the client in the body change nothing, by induction on the repetitions |
| C91 | Basic header whose parts are form-encoded | false of the code: witnesses on both sides; proved where the encoding changes nothing, and what is read and written exactly |
| C92 | answers of the token endpoint | false of the code: witness; proved which answers have a refresh token |
| C93 | the refusals of C84 against RFC 6749 section 5.2 | false of the code: witness; proved that five deviations are all, and that each is one |
| C94 | errors of the authorization endpoint against RFC 6749 section 4.1.2.1 | false of the code: two witnesses; proved when exactly the client is told |
| C95 | revocation and `Authorize` | false of the code: witness; proved that a revocation has an effect on the named token only |
| C96 | the refresh grant with a used token | false of the code: witness; proved that the request is refused without effect |
| C97 | all texts in answers, the grammars of RFC 6749 and RFC 6750 stated in `GrammarSpec.v` | the alphabet of base64url; every error of every branch; C31 for scopes; JSON round trip for the documents |
| C98 | all histories; collisions of SHA-256 stated in `ForgerySpec.v` with the hash of `HashSpec.v` | C49 gives an answer with the same signature; equal signatures of different keys are traced to the inner or outer hash of HMAC (C86) |
| C99 | every call of `handle`; the bytes of the source and their spelling stated in `RandomSpec.v` | each branch that draws a key; two runs of the same request compared branch by branch |
| C100 | `ioutil.ReadAll` and `io.LimitReader` over any `io.Reader` (`ReadAll.v`), buffers of any size; how a body arrives stated in `ReadAllSpec.v` | induction over the length of the body and over the calls of Read |
| C101 | `Request.ParseForm` over any `io.Reader` (`ReadForm.v`); how a body comes stated in `ReadFormSpec.v` | as C100; the handlers unfolded down to the form they use |
| C48 | introspection ignores expiry | false: `_refuted`; `_partial` for unexpired tokens; `_exact` for all instants |
| C52 | `LastIndexByte` | string lemma |
| C53 | goroutines as sequences of atomic map accesses guarded by the mutex | simulation by sequential execution |
| C72 | the same, with the waits for the body of a request and for the response to be taken | false: `_refuted`, `_standstill`; `_partial`: the server on its own reaches the next wait; invariants of the places where a goroutine can be |
| C55, C56, C57, C62, C63, C71 | `client.go`, the writers and parsers of responses and errors, JSON decoder | codec round trips; correct rounding of decimal literals and shortest decimals of float64; prefixes of a JSON object do not parse; composition with C38, C45-C47, C59 |
| C64 | `oauth2test/` run against the server | an invariant of the states reachable during the run, one lemma per subtest |
| C65 | `oauth2test/` run against an arbitrary handler | inversion of the run, composed over the subtests |
| C67 | `step` over sequences of calls | relation between two runs: the handlers commute with replacing the registry; for single calls from any two states that differ only in secrets (C67_serve, C67_authorize) |
| C68 | histories | induction over histories; `_kept` from the refinement of C45 |
| C69 | `step` over sequences of calls | the handlers commute with removing the credentials of other clients; foreign calls by C44; for groups of clients, with conditions only on what was given away (C69_groups), by C82 along the sequence |
| C70 | browser (`serve_http`), client library and `step` together | composes C16/C17, C59, C61, C55, C50, C60 along runs that leave the credential alone |

## 4. Trusted base

* The Coq kernel (8.16.1), `vm_compute` included.
* `Print Assumptions` of every theorem is printed during the build, see section 7.
* The reading of the Go code by the author. The Go standard library is not in
  `/repo`; the functions used are modelled after Go 1.16 (the version pinned in
  `.github/workflows/test.yml`).

## 5. What is modelled and what is not

Every Go file of the package is modelled, function by function. The table
gives the places where the model is coarser than the code; each is repeated in
the comment of the definition concerned.

| file in `/repo` | model | not modelled or simplified |
|---|---|---|
| `hs256.go` | `Hs256.v`, `Reader.v` (any random source), `Timing.v` (branches and reads of the comparisons) | running time apart from branches and reads; the random source is the finite string it delivers, which `Reader.v` justifies for any `io.Reader` (C05_reader; which error it returned is not kept) |
| `scope.go` | `Scope.v`, `Oauth2.v` | nothing |
| `bearer.go` | `Bearer.v`, `Token.v` | `EqualFold` as ASCII folding (exact for the word `bearer`, see the comment) |
| `error.go` | `Errors.v`, `ReadAll.v` (any body of a response) | an `error` that is not an `Error` is the single value `GOther` |
| `oauth2.go` | `Oauth2.v` | nothing |
| `token.go`, `code.go` | `Token.v`, `ReadAll.v` (any body of a response) | elsewhere a body is the bytes it delivers and whether reading ends cleanly, which `ReadAll.v` justifies for bodies that do not fail together with their last bytes (C100) |
| `authorization.go`, `introspection.go`, `revocation.go` | `Endpoints.v` | a Go value inside `Extra` is represented by the JSON value it is encoded as, a float64 by its literal (`Float.v` models strconv.ParseFloat and the shortest output of encoding/json) |
| `server.go` | `Server.v` (one call at a time), `History.v` (sequences of calls and of registrations), `Owner.v` (also assignments to the configuration and the credentials), `Concurrent.v` (goroutines, assignments by the owner and the mutex), `Writer.v` (any response writer), `Clock.v` (one call at a time with the `time.Time` of Go) | `time.Time` as one unbounded integer, except in `Time.v` and `Clock.v` (no locations); assignments by the owner while requests run are modelled with the exported mutex held; a call waits for its connection at most twice (whole form, whole response), and every response may have to wait |
| `client.go` | `Client.v` (one answer), `HttpClient.v` (messages and redirects) | the connection delivers every byte the handler wrote, or fails; no cookie jar; header fields that neither side looks at; the texts of errors that are not `Error`s |
| `oauth2test/` | `Model/Suite.v` | all tests of `Run`; package `testing`, testify and httptest only as a list of checks and a sequence of requests; see section 8 |
| `*_test.go` | `Tests/UnitTests.v` | the assertions of the unit tests, computed on the model (a check of the reading of the code, not a proof of anything); benchmarks not; `server_test.go` is `C64_own_test` |
| `README.md`, `Makefile` | - | not part of the library |

Standard library (Go 1.16): the functions the package calls are modelled, not
assumed: `strings`, `sort`, `strconv` (`GoStr.v`), `encoding/base64`
(`Base64.v`), `crypto/sha256` and `crypto/hmac` (`Sha256.v`), `net/url`
(`Url.v`), `mime`, `net/http` forms, Basic authentication, headers and response
writer (`Http.v`), `encoding/json` and `unicode/utf8` (`Json.v`), `time` (`Time.v`). Not modelled
of `net/http`: connections, HTTP/1 framing, the conversion of bytes into
`Request` values except for the request line (`HttpClient.v`; elsewhere a theorem
quantifies over all `Request` values),
trailers, HTTP/2.

Cryptographic assumptions: none. HMAC-SHA256 is computed; no theorem says that
signatures are hard to guess. C98 says that whatever is accepted was given out
before, or else exhibits a collision of SHA-256; it does not say who has it. Theorems that need two tokens to be different say
so in a hypothesis about the tokens drawn.

## 6. Files

Order as in `rocq/_CoqProject`; all below `rocq/theories/`.

* `Model/*.v`: the model. Definitions only; no proofs except the decidability
  of the string order.
* `Spec/*.v`: the vocabulary of the theorems, written without the helpers of
  the model where that is possible. `Spec/TokenSpec.v` (base64url as in
  RFC 4648), `SpellingSpec.v` (all spellings of one token), `ScopeSpec.v`, `JsonSpec.v` (string literals as in RFC 8259),
  `NumberSpec.v` (number literals as in RFC 8259, float64 as in IEEE 754),
  `WireSpec.v` (header parameters, error documents, redirect targets), `BuilderSpec.v` (the errors of the standards),
  `RequestSpec.v` (what a request says), `ServerSpec.v` (what a response
  shows), `HistorySpec.v` and `OwnerSpec.v` (the visible history), `TimeSpec.v` and `ClockSpec.v` (the two clocks), `FormSpec.v` (form data), `MediaSpec.v` (content types), `LocalSpec.v` (what a request mentions), `SecretSpec.v` (servers that differ in secrets only), `TextSpec.v` (all of RFC 8259) and `DocumentSpec.v` (JSON documents as answers), `WriterSpec.v` (calls on a response writer), `TransportSpec.v` (messages, redirects and where they lead, RFC 3986), `HostSpec.v` (hosts and ports), `RefusalSpec.v` (status and error code of each refusal), `HelperSpec.v` (the members and parameters of responses and requests), `HashSpec.v` (SHA-256 and HMAC), `TimingSpec.v` (where strings differ), `StandardSpec.v` (requirements of RFC 6749, 7009 and 7662), `GrammarSpec.v` (the grammar of tokens, scopes and errors), `ForgerySpec.v` (spellings of a token and collisions), `RandomSpec.v` (tokens and the random source), `ReaderSpec.v` (readers), `ReadAllSpec.v` and `ReadFormSpec.v` (how a body arrives), `FlowSpec.v` (pairs of sequences of calls), `ConcurrentSpec.v`
  (sequential explanation of a concurrent run), `ClientSpec.v` (what a client
  call says), `SuiteSpec.v` (when a test specification is true of a server,
  what a test run has seen). `Spec/*Cases.v`: concrete values for the non-vacuity examples.
* `Proof/*.v`: lemmas and proofs. `StrFacts`, `Base64Facts`, `HsFacts`,
  `ScopeFacts`, `DecFacts`, `JsonFacts`, `UrlFacts`, `UrlParse`, `WireFacts`:
  facts about the library functions. `Steps` lists everything a request can do
  (inductive predicate `handled`), `Effects` and `HistoryFacts` derive the
  effect on one entry and the invariants of histories. `Concurrent*`:
  the programs of `Model/Concurrent.v` refine the functions of
  `Model/Server.v`. `Clock*`: `Model/Clock.v` refines `Model/Server.v`. `Suite*`: the runs of the conformance suite. The `*Proofs` files close the theorems.
* `Props/*.v`: the theorems, one per claim or part of a claim, each closed by
  `exact`, with `Print Assumptions` beneath and an `Example` or `Theorem`
  showing a concrete case of the hypotheses. `Tokens` C01-C06, `Scopes`
  C07-C10, `Wire` C11-C17, `Requests` C18-C26, `Server` and `Histories`
  C27-C61, C66, `Concurrency` C53, C72, `Owner` C73, `Clock` C74, `Forms` C75, `Transport` C76 and C77, `Defaults` C78, `Documents` C79, `Delivery` C80 and C81, `Local` C82, C83 and the general forms of C67 and C69, `Refusals` C84, `Helpers` C85, `Hashes` C86, `Timing` C87 and C88, `Standards` C89 to C96, `Grammar` C97, `Forgery` C98, `Random` C99, `ReadAll` C100, `ReadForm` C101, `Clients` C55-C57, C62, C63, C71,
  `Suite` C64, C65, `Flow` C67-C70.
* `Tests/UnitTests.v`: the unit tests of `/repo` run on the model.

## 7. Print Assumptions

For every theorem named in `MANIFEST.json` the build prints

    Closed under the global context

so no theorem depends on an axiom, neither of this development nor of the
standard library. `coqchk -o` on the compiled files lists no axiom of this
development; what it reports besides comes with loading `Coq.ssr.ssrunder`
(module parameters of a functor of the Coq distribution, reached through
std++), on which no theorem depends. No kernel check is switched off, there is
no `Admitted`, no functor, no module type, no plugin.

## 8. The conformance suite

`Model/Suite.v` models the package `oauth2test`: `Do`, the helpers that read a
response and every subtest of `Run`, as a tree of requests and checks that is
run against a handler. A handler is any function from environment (clock and
random bytes), state and request to a state and a response, or a panic.

* C64 runs it against the server of `Model/Server.v` with a resource behind
  `Authorize`, for every specification that describes the server truthfully
  (`described` in `Spec/SuiteSpec.v`). `C64_own_test` is the test of
  `server_test.go` for any generated tokens.
* C65 is about any handler: what it has shown when the run passes.

Notes about the suite, found while proving:

* The helper `fragment` (utils.go:61-73) unescapes the fragment a second time
  (`url.Parse` already did), so the suite accepts the doubly escaped fragments
  of C17 and would reject correctly escaped ones that contain a literal `%`.
* `Run` insists on all tokens of the specification but `InsufficientToken`. If
  it is empty, the last check of the protected resource sends `Bearer ` with
  nothing behind it, and fails unless the server calls that insufficient.
* `Run` does not test expiry of newly issued tokens, nor that tokens of
  different grants differ.

## Seeded edits

`seeded/LOG.jsonl` lists edits of the model that a realistic bug would make. Each was made in a
scratch copy, and the files that depend on it were rebuilt. Lemmas that no longer prove were
admitted there, so that `Print Assumptions` shows which theorems depend on them: `failed`. (A
theorem listed there lost its proof; some of them may still be true of the edited model.) The
first batches rebuilt every file, later ones the files of the claim the edit breaks. Where a
lemma shared by most proofs broke first, the entry says so, or the shared lemmas were edited
along with the model.
