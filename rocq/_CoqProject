-Q theories Verif

theories/Model/GoStr.v
theories/Model/Base64.v
theories/Model/Sha256.v
theories/Model/Scope.v
theories/Model/Hs256.v
theories/Model/Url.v
theories/Model/Float.v
theories/Model/Json.v
theories/Model/Http.v
theories/Model/Oauth2.v
theories/Model/Errors.v
theories/Model/Token.v
theories/Model/Bearer.v
theories/Model/Endpoints.v
theories/Model/Server.v
theories/Model/Client.v
theories/Proof/StrFacts.v
theories/Proof/Base64Facts.v
theories/Spec/TokenSpec.v
theories/Spec/SpellingSpec.v
theories/Proof/HsFacts.v
theories/Proof/TokenProofs.v
theories/Proof/SpellingProofs.v
theories/Props/Tokens.v
theories/Spec/ScopeSpec.v
theories/Proof/ScopeFacts.v
theories/Proof/FloatFacts.v
theories/Proof/DecFacts.v
theories/Proof/FloatText.v
theories/Proof/JsonFacts.v
theories/Spec/NumberSpec.v
theories/Proof/NumberFacts.v
theories/Proof/NumberProofs.v
theories/Proof/IntegerProofs.v
theories/Spec/JsonSpec.v
theories/Proof/ScopeProofs.v
theories/Props/Scopes.v
theories/Proof/UrlFacts.v
theories/Proof/UrlParse.v
theories/Spec/WireSpec.v
theories/Spec/BuilderSpec.v
theories/Proof/WireFacts.v
theories/Proof/WireProofs.v
theories/Proof/ChallengeProofs.v
theories/Proof/BuilderProofs.v
theories/Proof/Redirect.v
theories/Proof/ServerFacts.v
theories/Props/Wire.v
theories/Proof/Steps.v
theories/Spec/RequestSpec.v
theories/Spec/Cases.v
theories/Proof/RequestProofs.v
theories/Proof/RequestParse.v
theories/Props/Requests.v
theories/Spec/ServerSpec.v
theories/Proof/ServerProofs.v
theories/Proof/GrantProofs.v
theories/Proof/EffectProofs.v
theories/Proof/CaseProofs.v
theories/Props/Server.v
theories/Model/History.v
theories/Model/Concurrent.v
theories/Spec/HistorySpec.v
theories/Proof/Effects.v
theories/Proof/HistoryFacts.v
theories/Proof/HistoryProofs.v
theories/Proof/ExpiredProofs.v
theories/Proof/HistoryMore.v
theories/Spec/HistoryCases.v
theories/Spec/ConcurrentSpec.v
theories/Spec/ConcurrentCases.v
theories/Proof/HistoryCase.v
theories/Proof/ConcurrentWp.v
theories/Proof/ConcurrentHandlers.v
theories/Proof/ConcurrentProofs.v
theories/Proof/ConcurrentMore.v
theories/Proof/ConcurrentCase.v
theories/Proof/ConcurrentWait.v
theories/Model/Owner.v
theories/Spec/OwnerSpec.v
theories/Spec/OwnerCases.v
theories/Proof/OwnerProofs.v
theories/Proof/OwnerCase.v
theories/Props/Histories.v
theories/Props/Concurrency.v
theories/Props/Owner.v
theories/Model/Time.v
theories/Model/Clock.v
theories/Spec/TimeSpec.v
theories/Spec/LocalSpec.v
theories/Spec/SecretSpec.v
theories/Spec/LocalCases.v
theories/Spec/SecretCases.v
theories/Spec/MediaSpec.v
theories/Spec/FormSpec.v
theories/Spec/FormCases.v
theories/Spec/ClockSpec.v
theories/Spec/ClockCases.v
theories/Proof/TimeProofs.v
theories/Proof/LocalProofs.v
theories/Proof/IsolationProofs.v
theories/Proof/SecretProofs.v
theories/Proof/LocalCase.v
theories/Proof/IsolationCase.v
theories/Proof/SecretCase.v
theories/Proof/MediaProofs.v
theories/Proof/FormProofs.v
theories/Proof/EndpointProofs.v
theories/Proof/FormCase.v
theories/Proof/ClockProofs.v
theories/Proof/ClockMore.v
theories/Proof/ClockCase.v
theories/Props/Forms.v
theories/Props/Clock.v
theories/Spec/ClientSpec.v
theories/Proof/CodecFacts.v
theories/Proof/CodecProofs.v
theories/Proof/CutProofs.v
theories/Proof/ClientProofs.v
theories/Spec/ClientCases.v
theories/Proof/ClientCase.v
theories/Props/Clients.v
theories/Model/Suite.v
theories/Spec/SuiteSpec.v
theories/Spec/SuiteCases.v
theories/Proof/SuiteFacts.v
theories/Proof/SuiteSteps.v
theories/Proof/SuiteReach.v
theories/Proof/SuiteTests.v
theories/Proof/SuiteSound.v
theories/Proof/SuiteProofs.v
theories/Proof/SuiteCase.v
theories/Props/Suite.v
theories/Spec/FlowSpec.v
theories/Spec/FlowCases.v
theories/Proof/FlowProofs.v
theories/Proof/FlowCase.v
theories/Proof/CodeFlow.v
theories/Proof/CodeFlowCase.v
theories/Props/Flow.v
theories/Tests/UnitTests.v
theories/Model/HttpClient.v
theories/Spec/TransportSpec.v
theories/Spec/HostSpec.v
theories/Proof/TransportFacts.v
theories/Proof/TransportProofs.v
theories/Proof/ArrivalProofs.v
theories/Spec/TransportCases.v
theories/Proof/TransportCase.v
theories/Proof/ReferenceProofs.v
theories/Proof/RefererProofs.v
theories/Proof/HostProofs.v
theories/Props/Transport.v
theories/Spec/DefaultSpec.v
theories/Proof/DefaultProofs.v
theories/Proof/DefaultCase.v
theories/Props/Defaults.v
theories/Spec/TextSpec.v
theories/Spec/DocumentSpec.v
theories/Proof/QuotedFacts.v
theories/Proof/JsonText.v
theories/Proof/NearestFacts.v
theories/Proof/DocumentFacts.v
theories/Proof/DocumentProofs.v
theories/Spec/DocumentCases.v
theories/Proof/DocumentCase.v
theories/Props/Documents.v
theories/Model/Writer.v
theories/Spec/WriterSpec.v
theories/Proof/WriterProofs.v
theories/Proof/RepeatProofs.v
theories/Props/Delivery.v
theories/Proof/AnyOrder.v
theories/Proof/AnyOrderCase.v
theories/Props/Local.v
theories/Spec/RefusalSpec.v
theories/Spec/RefusalCases.v
theories/Proof/RefusalProofs.v
theories/Proof/RefusalCase.v
theories/Props/Refusals.v
theories/Spec/HelperSpec.v
theories/Proof/HelperProofs.v
theories/Props/Helpers.v
theories/Spec/HashSpec.v
theories/Proof/HashFacts.v
theories/Proof/HashProofs.v
theories/Props/Hashes.v
theories/Model/Timing.v
theories/Spec/TimingSpec.v
theories/Proof/TimingProofs.v
theories/Props/Timing.v
theories/Spec/StandardSpec.v
theories/Spec/StandardCases.v
theories/Proof/StandardProofs.v
theories/Proof/StandardCase.v
theories/Props/Standards.v
theories/Spec/GrammarSpec.v
theories/Proof/GrammarProofs.v
theories/Proof/GrammarCase.v
theories/Props/Grammar.v
theories/Spec/ForgerySpec.v
theories/Proof/ForgeryProofs.v
theories/Proof/ForgeryCase.v
theories/Props/Forgery.v
theories/Spec/RandomSpec.v
theories/Proof/RandomProofs.v
theories/Props/Random.v
theories/Model/Reader.v
theories/Spec/ReaderSpec.v
theories/Proof/ReaderProofs.v
theories/Model/ReadAll.v
theories/Spec/ReadAllSpec.v
theories/Proof/ReadAllProofs.v
theories/Props/ReadAll.v
theories/Model/ReadForm.v
theories/Spec/ReadFormSpec.v
theories/Proof/ReadFormProofs.v
theories/Props/ReadForm.v
