# Formal model of horcrux in Rocq (Coq 8.16.1)

## 1. Trusted base (to be kept current)

* Coq's kernel (8.16.1) and `vm_compute`.
* The axioms printed by `Print Assumptions` under every property theorem (section 5).
* The theorems on threshold signing (C54, C56, C66, C67) have the laws of the scheme as hypotheses
  (`threshold_scheme`, `rsa_pair` in `Scheme.v`), not as axioms; `ToyScheme.v` proves them for a small instance,
  `EdScheme.v`, `EdHiding.v` and `RsaProofs.v` for Ed25519 and RSA as their standards define them (C90, C93).
* stdpp loads `Coq.ssr.ssreflect`, whose `ssrunder` module declares `Under_rel` and its laws as
  parameters of a module type instance; they show up when listing the axioms of the library files
  but no theorem depends on them (section 5).
* The reading of `/repo` recorded in the comments of the model files. Nothing is extracted or run.
* The reading of dependencies that are not in `/repo` (section 4).

## 2. Layout (`rocq/theories`)

| file | content |
|---|---|
| `GoBase.v` | Go integers (wrap-around), byte strings, `nil`-able slices, outcomes (`value / error / panic`) |
| `Wire.v`, `WireProofs.v` | protobuf wire format: varints, tags, unknown-field skipping, length-delimited framing |
| `Canonical.v`, `CanonicalProofs.v`, `CanonicalApi.v` | canonical votes/proposals: decoding, encoding, sign bytes, `UnpackHRST`, `onlyDifferByTimestamp` |
| `SignState.v`, `SignStateProofs.v` | `SignState`, `Save`, `CheckHRS`, cache |
| `Spec.v`, `CosignerSpec.v`, `DiskSpec.v`, `ValidatorSpec.v`, `RaftSpec.v`, `PrivvalSpec.v`, `RpcSpec.v`, `ConfigSpec.v` | the vocabulary of the property statements, independent of the model's helpers |
| `Crypto.v`, `Toy.v` | the record of cryptographic functions; a small instance used by witnesses only |
| `LocalCosigner.v`, `CosignerProofs*.v`, `ExtractProofs.v`, `CosignerWitness.v` | `LocalCosigner` with the aliased `Peers` slices as an explicit heap |
| `NonceSpec`, `NonceProofs` | which requests metadata stems from; the cosigner's own part in its nonce (C15, C61) |
| `Cluster.v`, `ClusterProofs.v` | n cosigners, arbitrary clients, quorum argument |
| `Json.v`, `JsonProofs.v`, `Utf8.v`, `Utf8Proofs.v` | JSON texts, base64, hex, string escaping and UTF-8 repair |
| `Disk.v`, `DiskProofs*.v`, `DiskWitness.v` | state files: format, asynchronous `save()`, crashes, `LoadSignState`, `LoadOrCreateSignState` |
| `Validator.v`, `ValidatorProofs*.v`, `ValidatorWitness.v` | `ThresholdValidator.SignBlock` as a state machine over concurrent calls |
| `Raft.v`, `RaftProofs.v` | the FSM of `raft_store.go`, snapshots, LSS events, `Join`, `TransferLeadership` |
| `Privval.v`, `PrivvalProofs.v` | the privval protocol: messages, codec, framing (`Serialization.go`) |
| `RemoteSigner.v`, `RemoteSignerProofs.v` | `remote_signer.go` in front of the threshold validator, on byte streams |
| `Rpc.v`, `RpcProofs.v` | gRPC messages: conversions and protobuf bytes |
| `Config.v`, `ConfigProofs*.v`, `ConfigWitness.v`, `ConfigApi.v` | configuration: parsing, validation, the commands that edit it, start-up of a cosigner, `chain-id set`, `state set` |
| `Poly.v`, `PolyProofs.v` | polynomials as coefficient lists over any field, Lagrange interpolation at 0 |
| `Scheme.v`, `ToyScheme.v` | hypotheses on the threshold signature scheme and on RSA; the toy instance satisfies them |
| `RoundSpec.v`, `RoundProofs*.v` | one honest signing round: cosigners, leader, both together |
| `KeyShares.v`, `KeySharesSpec.v`, `KeySharesProofs.v`, `ThresholdWitness.v` | `create-shares`; from the key file to a signature |
| `FilePV`, `FilePVSpec`, `FilePVProofs`, `FilePVAnswers` | single signer: tendermint FilePV, process life, state file, restarts (C57) |
| `JsonSpec`, `JsonTextProofs`, `JsonStateProofs`, `PropsJson` | grammar of RFC 8259, base64 and hex as relations; the parser and `load` are equal to them (C94) |
| `EntrySpec`, `EntryProofs`, `PropsEntry` | structs of encoding/json as relations on texts: log entries, events, snapshots, key files (C95) |
| `Goroutines`, `GoroutineSpec`, `GoroutineProofs`, `PropsGoroutine` | wait groups, waiters and goroutines of `SignBlock`, any number of calls (C96) |
| `Locks`, `LockSpec`, `LockProofs`, `PropsLocks` | mutexes and raft futures of all goroutines of a process, and their accesses to shared state (C97, C98) |
| `KeyFile`, `KeyFileSpec`, `KeyFileProofs` | key files: JSON text, protobuf and amino public keys (C68) |
| `Startup`, `StartupSpec`, `StartupProofs` | raft bootstrap, order of events at start, `isRunning` (C69-C71) |
| `System`, `SystemSpec`, `SystemProofs`, `SystemWitness`, `SystemLossWitness` | the whole cluster: validators, cosigners, files and raft log of all hosts in one transition system (C72) |
| `SystemLiveSpec`, `SystemLive`, `SystemLiveWitness` | sequences of requests to the composed cluster are all answered (C73) |
| `FailoverSpec`, `FailoverProofs`, `FailoverWitness` | requests made again after a first attempt, on the composed cluster (C74, C75) |
| `HidingSpec`, `HidingProofs`, `HidingWitness` | runs of a cosigner with another key share and the same view (C09) |
| `ConnLoop`, `ConnLoopSpec`, `ConnLoopProofs` | the loop of a remote signer: connecting, reading, answering, stopping; stopping all services (C76-C78) |
| `Machine`, `MachineSpec`, `MachineProofs`, `MachineProofs2`, `MachineWitness` | what a user types on a machine with several directories: config init, edits, chain-id set, state set/show, cosigner start; setting up a cluster (C79-C82) |
| `Bech32`, `Bech32Proofs`, `Bip173`, `Bip173Proofs`, `Address`, `AddressSpec`, `AddressProofs`, `AddressWitness` | bech32, BIP 173 stated independently, and `cosigner address` (C83) |
| `SocketSpec`, `SocketProofs`, `SocketWitness` | a cluster seen from the sockets of chain nodes (C84) |
| `Url`, `Dial`, `DialSpec`, `UrlProofs`, `DialProofs`, `DialWitness` | addresses: parsing, listening, dialing (C85) |
| `TimedSpec`, `TimedProofs`, `TimedWitness` | runs of the threshold validator with a clock (C86) |
| `Single`, `SingleSpec`, `SingleProofs`, `SingleWitness` | the process of `signer start`: FilePV and one connection loop per chain node, any number of lives (C87) |
| `Duration`, `DurationSpec`, `DurationProofs` | durations as text and the wait of `raft.Apply` (C88) |
| `Forward`, `ForwardSpec`, `ForwardProofs` | the way of a request from host to host while leaders change (C89) |
| `Pkcs1`, `Pkcs1Proofs` | RSA keys as DER texts (C68) |
| `Rsa`, `RsaSpec`, `NumTheory`, `RsaProofs`, `PropsRsa` | RSA-OAEP and RSA-PSS, number theory (C68, C90) |
| `RpcFieldsSpec`, `RpcFieldsProofs`, `PropsRpc` | gRPC messages with arbitrary fields (C91) |
| `GoFieldsSpec`, `GoFieldsProofs`, `PropsFields` | sign bytes and privval requests with arbitrary fields (C92) |
| `GroupSpec`, `GroupProofs`, `PropsGroups` | unknown groups, nested or not, in sign bytes (C92) |
| `Ed25519` | the curve, encodings, RFC 8032 verification, keys from seeds, shares modulo the group order, as functions that compute |
| `EdPrimes`, `EdField`, `EdCurve`, `EdCalc`, `EdPoints`, `EdBytes`, `EdScheme` | primality of the field and of the group order, field, group law of the curve, order of the base point, encodings; the laws of `Scheme` for Ed25519 (C93) |
| `EdSpec`, `EdSpecProofs`, `EdHiding`, `EdWitness`, `PropsEd` | RFC 8032 stated independently; the model is equal to it; the laws of `HidingSpec`; clusters with real keys (C93) |
| `Sha`, `ShaSpec`, `ShaProofs`, `ShaWitness`, `PropsSha` | SHA-256 and SHA-512; FIPS 180-4 stated independently; the model is equal to it; test vectors; C93 and C83 with these functions (C99) |
| `Deadline`, `DeadlineSpec`, `DeadlineProofs`, `PropsDeadline` | the call of a follower to the leader and its deadline; two timed runs joined by it (C100) |
| `Show`, `ShowSpec`, `ShowProofs`, `PropsShow` | the output of `state show`; lines and reports stated independently (C101) |
| `Props*.v` | property theorems, examples that meet their hypotheses, `Print Assumptions` |


Cryptographic primitives are a record of functions (`Crypto`) over which every theorem is universally
quantified; no field of the record is a proposition, so any assumption on them is a visible hypothesis.

Properties the code violates are stated in full, refuted with a concrete witness (`..._refuted`), and
accompanied by the strongest guarded version that holds (`..._partial`).

## 3. Plan per property

| id | what is modelled | how it is proved |
|---|---|---|
| C01, C02 | `Save`, `GetErrorIfLessOrEqual` | case analysis against lexicographic order; induction over save lists |
| C03 | `CheckHRS` | complete case table |
| C04 | cache map, window with int64 subtraction | invariant over save lists relating cache to accepted history |
| C05, C06 | full cosigner step relation, log of released shares | invariant: last recorded sign bytes agree with every logged share at the current HRS |
| C07 | `sign` retry branch | refuted by a 4-step history; proved when no same-HRS re-sign intervened |
| C08 | metadata keyed by HRST, byte-level decoding | refuted by a trailing byte / timestamp wrap; proved for canonical sign bytes with in-range timestamps |
| C09 | algebra of `SignWithShare`; for the positive part further laws (`hiding_laws`: dealing reaches every polynomial, unique encodings, RSA operations do not fail because of the plaintext) | explicit attacks: two requests, formula for the share; a replaced part. Positive part: simulation, step by step, of the run with another key share, shifting the own share of each dealing by challenge * (x - x') |
| C10 | signed payload | refuted by cross-HRST replay; proved: payload was signed by the peer's key |
| C11 | `setEphemeralSecretPart` | direct |
| C12 | `GetEphemeralSecretParts`, per-peer locking | proved for the sequential schedule; refuted with an interleaved `sign` |
| C13, C14 | metadata map | invariant / direct |
| C15 | metadata map | refuted for every bound; induction over runs: entries stem from requests |
| C16 | aliasing heap | refuted by witness; proved when the HRST metadata was created by `GetEphemeralSecretParts` |
| C17 | `sign` | direct, invariant |
| C18-C22 | byte-level codec | decode-after-encode by induction over fields; refutations by witness |
| C23 | conversions, protobuf form of the gRPC messages | decode-after-encode, induction on lists of parts |
| C24 | all privval messages, framing | decode-after-encode, induction on streams |
| C25-C33 | SignBlock threads | invariants over all interleavings |
| C34 | cluster of cosigners | C05 + pigeonhole on quorums |
| C35 | config validation | refuted; guarded version feeds C34 |
| C36-C39 | disk model | refuted by schedules; guarded versions by invariants |
| C40, C41, C44 | log entries as bytes, JSON decoding, the FSM | induction on logs |
| C42 | snapshot text and its decoding | round trip by induction on the map's entries; refuted for sign states |
| C43 | SignBlock + FSM | refuted by a run whose Emit fails; the entry's effect by JSON round trip |
| C45 | request handlers over the threshold validator | case analysis; composed with C25 over runs |
| C46 | one connection as a function from input bytes to output bytes | refuted by three bytes; induction on the input for the rest |
| C47-C52 | config | induction on lists / strings; file-system step model |
| C53 | create-shares | induction; uint8 truncation refuted |
| C54, C55 | polynomials over any field, `create-shares` | a polynomial with k roots and k coefficients is 0; Lagrange basis |
| C56 | dealing, exchange of parts, signing | linearity of interpolation, choice over the participants |
| C66 | `create-shares`, start-up, one call of `SignBlock` with honest cosigners | explicit run of the state machine, C56; refuted for a single cosigner |
| C67 | the `create-shares` command | refuted by witnesses; proved for 1 <= t <= n <= 255 |
| C57 | tendermint `FilePV`, atomic state file with failing writes, start and stop events, requests read from the wire | invariant in one process life (state covers everything handed out); refuted across restart (`LoadFilePVEmptyState`); holds for every history if the file were read at start |
| C68 | `MarshalJSON`, `UnmarshalJSON`, `LoadCosignerKey` on texts; PKCS #1 and amino are functions, inverse codecs a hypothesis; then PKCS #1 itself (`Pkcs1`: DER lengths and integers, both key forms) for all keys of GenerateKey | text round trip through the JSON grammar; order of members by commutation of decoding steps; incomplete files and `null` refuted |
| C69 | `Open`: bootstrap configuration, raft's validity check, dropped error, state already in the stores | permutation of a cluster plan, majority argument; own ID among the peers and later changes refuted |
| C70 | events: set validator, open raft, serve, apply entry, SignBlock call; nil validator is a panic | exact set of crashing interleavings by induction over runs; refuted by two of them |
| C71 | process table, `pgrep` on Linux and BSD (ancestors left out), `state set` behind it | exact for both; Linux self-match and renamed signer refuted |
| C72 | composition of `Validator`, `LocalCosigner`, `Disk`, `Raft`: events of all hosts in one history; network and raft give only answers and entries that some process produced | invariant by induction over histories (levels of each cosigner, every recorded signature verifies and has a quorum), quorum intersection in which hosts that lost state count like faulty ones; refuted (one crash before the file is written, 2-of-3); the half about signatures needs no assumption on crashes or files |
| C73 | the transition system of C72 from any reachable state; `deployed` ties the hosts' keys to the output of create-shares | a fair schedule is built for one request (every step shown enabled, levels tracked), raft entries are applied, then induction over the requests |
| C74 | the transition system of C72; an unfinished attempt is any history in which the cosigners answering now were at most asked for parts | refuted by a run in which the leader crashes after one cosigner signed; proved for attempts that only collected parts: such a history keeps each of those cosigners `ready` (its metadata, if any, holds only its own dealing), then the schedule of C73 |
| C75 | the transition system of C72 after a signature was handed out | refuted by two runs (a new leader; a second timestamp and another quorum); proved for a host whose recorded state is that of the request and whose initiated level is not below it |
| C76 | the loop of `remote_signer.go` as a step machine, labels are what the outside does, observations what is seen on connections | the trace is parsed by a grammar of sessions (invariant over the position in the loop); progress by a measure of steps to the next answer |
| C77 | the same machine, Stop between any two steps; services as tendermint's started/stopped flags | refuted by a signer waiting in `ReadMsg` and by one that cannot connect; measure of what may still be read after Stop |
| C78 | the same machine | refuted for any number of failed handshakes; exact set of connections left open by an invariant |
| C79 | create-shares, key files, config init, start and the composed system of C72, C73 put together on machines | the files written are followed through parsing and validation; the started hosts are shown to meet the hypotheses of C72, C73 and C69 |
| C80 | `Machine`: --home, home-dir in config.yaml, state files by directory | refuted by a copied directory; state set followed by start, chain-id set followed by start; home-dir is invariant under all commands |
| C81 | the same; a nil configuration is `Panic` | refuted without config.yaml; crashes characterised by an iff for every command |
| C82 | the same | refuted by chain-id set onto an existing state and by config init -o after an unreadable state; per command, watermarks of all files in all directories |
| C83 | `Address`: AddressCmd and PubKey on machines; `Bech32`: encoder and decoder on byte strings | refuted by the empty prefix and by "Cosmos"; exact set of prefixes that decode (checksum as a polynomial over GF(2)^5 with linear feedback); the texts are exactly those of BIP 173, where the checksum is the remainder of a division by the generator over GF(32); same line on all hosts of a plan; equal lines give equal keys |
| C84 | `System` (all hosts) behind `ConnLoop` (any number of remote signers per host, any connections): the bytes written to a connection, read with the privval reader | refuted by one crash in 2-of-3, and without any fault by a nil precommit at the Unix epoch; else composition of C76 (what is on a connection), C45, C18/C20 and C72; set-up clusters by C79 |
| C85 | `Url`: host of `url.Parse`, `net.SplitHostPort`; `Dial`: listening (`RaftStore.init`), raft and cosigner addresses, `elect`, node dialing | spec: addresses by grammar (`hostport`); refuted for peers without scheme, ports, hand-edited listen addresses, IPv6 in elect, unknown networks; for documented spellings direct, and lifted to plans (C79) |
| C86 | `Validator` with a clock (`TimedSpec`): times never decrease, two looks of a polling call are at least 10 ms apart, a phase is given up at the earliest 4 s after its wait began; everything else may take any time | refuted by a run in which the shares take 2 s; guarded: induction over the run counting the looks of the second call against the time of the save |
| C87 | `Single`: `FilePV` behind the mutex of `PvGuard`, `ConnLoop` for each chain node, kill and start; chain nodes read the bytes of `OOut` | invariant: FilePV's world is that of a `pv_run`, each life is one `Start` and its loops are runs of `ConnLoop` whose validators answer with what FilePV handed out in that life; then C57 and the stream lemma of C84; refuted across a restart by a computed run |
| C88 | `Duration`: `time.ParseDuration` with float64 fractions, the check of the configuration, the wait of `raft.Apply` | induction on the parts of the text in both directions against `duration_text` (digits, unit names, decimal values); refuted for zero and negative durations; case analysis of the wait |
| C89 | `Forward`: `raft.State` and `raft.Leader` of every host under elections, heartbeats, stepping down, restarts; the request as a list of hops | invariant: a known leader led in that term, and who led a term knows no leader of an earlier one; induction on the way; refuted by a host that has just stopped leading and by old knowledge |
| C90 | `Rsa`: `EncryptOAEP`, `DecryptOAEP`, `SignPSS`, `VerifyPSS` of crypto/rsa with MGF1, blinding and the Chinese remainder theorem; the hash is a parameter; the JSON text that is hashed is `part_text` | Fermat's little theorem by permuting residues (`NumTheory`), extended Euclid with its bound on steps, lists of bytes as numbers; the predicate `rsa_pair` assumed by C53-C56 and C66 follows for the texts in the key files; `part_text` is injective by parsing it back, so that one signature for two parts exhibits a collision of the hash; refuted for files with composite factors; example primes by Proth's theorem |
| C91 | decoders of `Rpc` on arbitrary lists of fields (`RpcFieldsSpec`) | one lemma for a field of any message (read, skipped or refused), then induction on the list; merging of messages as concatenation of their fields |
| C92 | decoders of `Canonical` and `Privval` on arbitrary lists of fields (`GoFieldsSpec`) | as C91, with the refusals of the generated code (wrong wire type, time out of range); what a field does is shown not to depend on what follows it, so pieces of a message are decoded like their concatenation |
| C93 | `Ed25519` and `Rsa` put into the `Crypto` record; RFC 8032 as `EdSpec` (points as pairs of integers, relations instead of functions) | primality by Pocklington certificates; the curve is complete because 121665/121666 is not a square; associativity of addition as polynomial identities, checked by `ring` on numerators; the base point has the stated order by computation; then the laws of `Scheme` and `HidingSpec`, which C54, C79 and C09 turn into statements about clusters |
| C94 | `parse_json`, `unescape`, `unmarshal_state`, `load` on arbitrary bytes; the grammar of RFC 8259, the meaning of escapes and surrogate pairs, base64 and hex as inductive relations (`JsonSpec`) | soundness by induction on the fuel, completeness by induction on the derivation; then member by member |
| C95 | `decode_command`, `decode_lss`, `restore`, `load_key` on arbitrary bytes; names without regard to case, UTF-8 repair and field types as relations (`EntrySpec`) | each field of a struct is a fold over the members, equal to "the last member that sets it"; then C40 and C41 with texts in place of decoders |
| C96 | the counters of both wait groups, the map's size, the two waiters and the peer goroutines of each call, calls interleaved (`Goroutines`) | invariant relating the counters to the answers so far, a measure for termination; refuted by calls no peer answers, the rest counted exactly |
| C97 | each function as the sequence of its acquisitions, releases, raft submissions and waits; any number of goroutines running any of them, raft's goroutine with its queue (`Locks`) | a discipline checked on programs (nothing but the guard is held when something is waited for), an invariant relating it to owners and futures, induction over runs; a measure for termination |
| C98 | accesses to caches, fields, nonces and the store's map in the programs of C97 | invariant: each access but reads of fields is made by the holder of the mutex of that place, or by raft's goroutine; refuted by a run with two entries and the goroutine of `save` |
| C99 | `Sha`: the two functions as Go's crypto/sha256 and crypto/sha512 compute them; `ShaSpec`: FIPS 180-4 as relations on bits, the constants as first bits of roots of the first primes | each function of words against its bits; schedule, rounds, blocks and padding by induction; constants by computation; then C93 and C83 with both functions. RFC 8032 test 3 is computed in the model by `Compute`, with faster arithmetic proved equal; it is a test printed when the file is compiled, no theorem depends on it |
| C100 | `Deadline`: LeaderSignBlock as the handler's answer through the codec of `Rpc`, or an error at its deadline; `DeadlineSpec`: a timed run of the follower and one of the leader joined by a handed-on request | as stated false: witness with waits of 3 s each; the cases of the answer from C33 and C23; repeated requests with C86 |
| C101 | `Show`: the text printed by `state show`; `ShowSpec`: lines of a text, and a report as a list of lines with numbers, base64 and hexadecimal as the relations of `ConfigSpec` and `JsonSpec` | output against the relation line by line; the relation has one reading because the labels differ; the files by C94, the next start by C80 |
| C58-C60 | elect, join, state set | direct |
| C63 | files of all chains | refuted by two chains in one directory; frame of the two renames otherwise |
| C64 | `config init` | inversion of the command, pigeonhole |
| C65 | `state set`, `initConfig` | refuted for every argument |
| C62 | loading of state files | refuted for `{}`, `null` and for truncated files at the validator state; `LoadSignState` refuses every proper prefix of a state text |
| C61 | `sign` on a key stored but never dealt | explicit attack: one part, one request; otherwise invariant on the own slot of every dealing |

## 4. External code read from memory (not in `/repo`)

tendermint v0.34.14: `libs/protoio` (`MarshalDelimited`, `UnmarshalDelimited`, reader), generated
`CanonicalVote/CanonicalProposal/CanonicalBlockID` (un)marshalling, `types.VoteSignBytes`,
`types.CanonicalizeVote`, `privval.FilePV`, generated `proto/tendermint/privval`, `types` and `crypto`;
google.golang.org/protobuf as a codec (field order, omitted zero values, UTF-8 check of strings); gogo/protobuf `StdTimeUnmarshal`, `proto.Equal`;
threshold-ed25519 (`DealShares`, `CombineShares`, `SignWithShare`, `AddScalars`, `AddElements`, `ScalarMultiplyBase`, `ExpandSecret`) as Shamir/Schnorr over the scalar field, and `crypto/ed25519` `Verify` as RFC 8032 says (C93, `Ed25519`): scalars of 32 bytes count modulo the group order, also the nonces of `local_cosigner.go:267`, which are 32 random bytes without clearing of the top bit;
hashicorp/raft as a log of commands applied in order, its `nextConfiguration`/`checkConfiguration`;
Go's `strings.Split`, `strconv.Atoi`; `net/url`, `time.ParseDuration` and `net.SplitHostPort` are parameters (`Lib`) up to C84; for C85 the host of `url.Parse` and `net.SplitHostPort` (go 1.17) are modelled in `Url`, service names as ports are not; for C88 `time.ParseDuration` is modelled in `Duration` (go 1.18; 1.16 and 1.17 differ only in refusing exactly -2^63 ns), its float64 arithmetic with Coq's `SpecFloat`;
hashicorp/raft v1.3.3 `Apply`: a positive time-out ends the wait for the leader's loop, zero and negative ones do not (shutting down, which also ends it, is left out);
hashicorp/raft v1.3.3 `State` and `Leader`, as far as C89 needs them (`Forward`): what elections, heartbeats, stepping down and restarts do to these two answers, with one leader per term;
viper/yaml as writing and reading back the same configuration; `pgrep` of procps and of BSD (which processes they leave out);
hashicorp/raft `BootstrapCluster`; `crypto/x509` PKCS #1 and go-amino as functions (`KeyLib`); PKCS #1 with the part of `encoding/asn1` it needs also as functions that compute (`Pkcs1`); `crypto/rsa` OAEP and PSS (`Rsa`; SHA-256 is a parameter there and computed in C99, primes of generated keys are a hypothesis);
tendermint `libs/json`, `libs/bytes.HexBytes`, `libs/tempfile`; Go's `encoding/json`, `encoding/base64`,
`encoding/hex`, `unicode/utf8`; cosmos-sdk `types/bech32` and btcutil/cosmos `bech32` (BIP-173, limit 1023), the SDK's JSON and amino
encoding of an ed25519 key, tendermint's `PubKey.Address`.

## 5. Assumptions per theorem

Every `Props*.v` file ends with `Print Assumptions` for each of its theorems. For every theorem listed in
`MANIFEST.json` the answer is `Closed under the global context`: no axiom, neither of ours nor of the
standard library.

## 6. Which code is modelled

Everything in `/repo` outside `test/`, generated protobuf code and documentation, by file. "Not modelled"
means that no definition stands for it and no theorem says anything about it.

| file | modelled | not modelled |
|---|---|---|
| `signer/sign_state.go` | all functions: `Save`, `save`, `CheckHRS`, `GetErrorIfLessOrEqual`, `GetFromCache`, `LoadSignState`, `LoadOrCreateSignState`, `OnlyDifferByTimestamp`, step constants (`SignState`, `Disk`, `Canonical`) | texts of error messages; file permissions; the condition variable of later versions does not exist here |
| `signer/Serialization.go` | `ReadMsg`, `WriteMsg`, `UnpackHRST` (`Privval`, `Canonical`) | – |
| `signer/local_cosigner.go` | all functions; one atomic step per acquisition of the mutex (`LocalCosigner`) | `GetAddress`; error texts; the RSA-signed payload is the triple it contains; its JSON text is `part_text` (`Rsa`), shown injective in C90 |
| `signer/Cosigner.go`, `signer/grpc_server.go`, `signer/remote_cosigner.go` | message conversions in both directions, IDs cut to 32 bits, `TransferLeadership` (`Rpc`, `Raft`), the deadline of `LeaderSignBlock` (`Deadline`) | dialing, deadlines of the other calls (any call may fail or never be answered), TLS (there is none) |
| `signer/cosigner_grpc_server.go` | same text as `grpc_server.go`, which the raft store registers | – |
| `signer/threshold_validator.go` | `SignBlock` and everything it calls, as a state machine over any number of concurrent calls, with time-outs and answers in any order (`Validator`); `SignVote`, `SignProposal`, `GetPubKey` (`RemoteSigner`); goroutines left behind (`Goroutines`); locking (`Locks`); time-outs with a clock for one repeated request (`Timed`) | other durations of time-outs; goroutines that outlive a call keep answering into a call that has ended and have no effect |
| `signer/raft_events.go`, `signer/raft_store.go` | `Get`, `Set`, `Delete`, `Emit`, `Join`, FSM (`Apply`, `Snapshot`, `Persist`, `Restore`), LSS events, `LeaderSignBlock`, bootstrap in `Open`, order of `OnStart` and `SetThresholdValidator`, `getLeaderGRPCClient` (`Raft`, `Startup`, `System`, `Forward`) | raft itself (elections, log replication) and its stores: entries are applied in log order, each node any prefix; transport |
| `signer/remote_signer.go` | handlers, one connection (`RemoteSigner`); the loop, `StartRemoteSigners` (`ConnLoop`) | what dialing and the handshake send; waiting times |
| `signer/PvGuard.go` | requests of the single signer one at a time (`FilePV`); the threshold validator is modelled without it (more interleavings) | – |
| `signer/cosigner_key.go`, `signer/cosigner_key_shares.go` | JSON of key files in both directions, `LoadCosignerKey`, `CreateCosignerShares`, `WriteCosignerShareFile`, `makeRSAKeys` (`KeyFile`, `KeyShares`) | RSA key generation (its result is the predicate `generated`), amino; PKCS #1 is a parameter except in C68_generated, C68_rsa_partial and C90 (`Pkcs1`) |
| `signer/Config.go` | `PubKey` (`Address`); `KeyFileExists` as part of loading the key (a missing file is an error in both) | error texts |
| `signer/services.go` | stopping all services (`ConnLoop`) | waiting for the signal, end of the process |
| `cmd/.../config.go` | all commands and validation functions (`Config`); on machines with several directories (`Machine`) | YAML text |
| `cmd/.../cosigner.go` | `AddressCmd` (`Address`); `StartCosignerCmd`: validation, loading, wiring, order of start (`Config`, `Disk`, `Startup`, `System`) | the secp256k1 branch beyond failing |
| `cmd/.../signer.go` | `StartSignerCmd` with tendermint's `FilePV` (`FilePV`), with its remote signers (`Single`) | – |
| `cmd/.../state.go` | `state set`, `state show`, `isRunning` (`Config`, `Startup`, `Machine`), the text printed (`Show`) | error texts |
| `cmd/.../key2shares.go` | the command (`KeyShares`) | – |
| `cmd/.../leader_election.go` | the request and what the server does with it (`Raft`); the addresses dialed (`Dial`) | the gRPC balancer (health checks, retries) |
| `cmd/.../root.go` | `initConfig` (`Machine`) | environment variables (overridden by the file for every key it has), a file of the right syntax but wrong types (`os.Exit(1)`) |
| `version.go`, `main.go` | – | version output |
