{"id": "C01", "title": "High watermark is monotone", "statement": "Whatever sequence of Save calls is made on a sign state, its height/round/step never decreases in the lexicographic order; every accepted Save strictly increases it to exactly the saved height/round/step, signature and sign bytes, and every rejected Save leaves the whole state (including the cache) untouched.", "quantifier": "every initial sign state and every finite sequence of Save calls with arbitrary height, round, step, signature and sign bytes", "why_tests_cant": "histories are unbounded; a test only exercises a few orderings", "anchors": ["signer/sign_state.go: SignState.Save, GetErrorIfLessOrEqual"]}
{"id": "C02", "title": "Save accepts exactly the strictly greater height/round/step", "statement": "Save succeeds if and only if (height, round, step) is lexicographically greater than the stored one; it answers SameHRSError if and only if they are equal, and a height, round or step regression error otherwise, naming the first component that regressed.", "quantifier": "every pair of stored and offered height/round/step (all int64/int64/int8 values)", "why_tests_cant": "the decision is over six unbounded integers; tests sample boundary points only", "anchors": ["signer/sign_state.go: Save, GetErrorIfLessOrEqual, SameHRSError"]}
{"id": "C03", "title": "CheckHRS decision table", "statement": "CheckHRS returns an error exactly when the request regresses or when it matches the stored HRS with no recorded sign bytes, returns true exactly when it matches the stored HRS with recorded sign bytes and signature, returns false without error exactly when the request is strictly greater, and panics exactly when it matches, sign bytes are recorded and no signature is.", "quantifier": "every sign state and every requested height/round/step/timestamp", "why_tests_cant": "infinite input domain with a panic branch", "anchors": ["signer/sign_state.go: CheckHRS"]}
{"id": "C04", "title": "Signature cache window", "statement": "After any history of saves the cache answers a lookup at an HRS with the record accepted at that HRS if the record's height is at least (current height - 3), and with nothing for any HRS never accepted or below that window; entries are never altered.", "quantifier": "every history of Save calls and every looked-up HRS", "why_tests_cant": "depends on the whole history and on int64 arithmetic at the window boundary", "anchors": ["signer/sign_state.go: Save, GetFromCache, blocksToCache"]}
{"id": "C05", "title": "A cosigner never signs conflicting data", "statement": "For a running cosigner, any two byte strings for which it released a signature share that decode to the same height, round and step decode to the same message except for the timestamp (same block ID, same chain ID, same POL round).", "quantifier": "every starting sign state, every interleaving of GetEphemeralSecretParts, SetEphemeralSecretPartsAndSign (arbitrary, even malicious, parts/HRST/sign bytes), raft last-signed-state events, and every outcome of the cryptographic primitives", "why_tests_cant": "adversarial unbounded request histories; equivocation needs a specific interleaving", "anchors": ["signer/local_cosigner.go: sign, SetEphemeralSecretPartsAndSign, SaveLastSignedState", "signer/sign_state.go: CheckHRS, OnlyDifferByTimestamp", "signer/Serialization.go: UnpackHRST"]}
{"id": "C06", "title": "A cosigner never signs below its watermark", "statement": "Every share a running cosigner releases is for sign bytes whose height/round/step is at least that of every share it released earlier, of the sign state it started from, and of every last-signed-state event it accepted earlier.", "quantifier": "every history of cosigner API calls and raft events", "why_tests_cant": "unbounded histories", "anchors": ["signer/local_cosigner.go: sign", "signer/sign_state.go: CheckHRS, Save"]}
{"id": "C07", "title": "Retrying identical sign bytes returns the original share", "statement": "If a cosigner produced (ephemeral public key, signature share) for some sign bytes and is asked again for exactly those bytes while they are still its last signed bytes, it answers with exactly the same pair and changes nothing.", "quantifier": "every history between the two identical requests", "why_tests_cant": "only a particular history (a timestamp-only re-sign, or a raft event) breaks it", "anchors": ["signer/local_cosigner.go: sign (lines 177-187, 225-238)"]}
{"id": "C08", "title": "An ephemeral nonce signs at most one message", "statement": "A cosigner never produces two signature shares for two different byte strings under the metadata (nonce share) of the same height/round/step/timestamp key.", "quantifier": "every history of cosigner API calls with arbitrary sign bytes", "why_tests_cant": "needs adversarial encodings of sign bytes; one nonce reuse discloses the private key share", "anchors": ["signer/local_cosigner.go: sign, hrsMeta", "signer/Serialization.go: UnpackHRST", "signer/Cosigner.go: HRSTKey"]}
{"id": "C09", "title": "Remote callers cannot extract a key share", "statement": "No sequence of cosigner RPCs lets the caller compute the cosigner's private key share from the responses.", "quantifier": "every sequence of RPC requests and responses", "why_tests_cant": "an adversarial statement over all clients; tests only play honest clients", "anchors": ["signer/local_cosigner.go: sign", "signer/grpc_server.go: SetEphemeralSecretPartsAndSign"]}
{"id": "C10", "title": "Secret parts are bound to the block they were issued for", "statement": "A cosigner only stores a peer's secret part for a height/round/step/timestamp if that peer issued the part for that same height/round/step/timestamp and for this cosigner.", "quantifier": "every request stream, including replays of genuine parts", "why_tests_cant": "replay attacks are never generated by tests", "anchors": ["signer/local_cosigner.go: getEphemeralSecretPart (signed payload), setEphemeralSecretPart"]}
{"id": "C11", "title": "Unauthenticated secret parts have no effect", "statement": "A secret part whose source is not a configured peer, whose signature is missing, or whose signature does not verify under that peer's RSA key is rejected with an error and changes neither the metadata nor the sign state.", "quantifier": "every cosigner state and every part", "why_tests_cant": "the space of malformed parts is unbounded", "anchors": ["signer/local_cosigner.go: setEphemeralSecretPart"]}
{"id": "C12", "title": "Shape of GetEphemeralSecretParts", "statement": "A successful GetEphemeralSecretParts contains exactly one part for every configured peer except the cosigner itself, each carrying the cosigner's own ID as source, the peer's ID as destination, an encryption under that peer's key of the share dealt to that peer, and the same ephemeral public key.", "quantifier": "every peer set, HRST and interleaving with other requests", "why_tests_cant": "interleavings with concurrent sign calls are schedules, not inputs", "anchors": ["signer/local_cosigner.go: GetEphemeralSecretParts, getEphemeralSecretPart, dealShares"]}
{"id": "C13", "title": "Dealing is stable", "statement": "Once a cosigner has dealt an ephemeral secret for an HRST, every later request for the same HRST deals shares of the very same secret until a share for a higher height/round/step is signed.", "quantifier": "every history of requests between the two deals", "why_tests_cant": "history dependent", "anchors": ["signer/local_cosigner.go: dealShares, getEphemeralSecretPart, sign (pruning)"]}
{"id": "C14", "title": "Signing prunes exactly the older metadata", "statement": "After a fresh share is signed at some HRS, metadata strictly below that height/round/step is gone and all other metadata is unchanged; a cosigner never afterwards provides secret parts below its signed level.", "quantifier": "every metadata map and every sign request", "why_tests_cant": "map contents unbounded", "anchors": ["signer/local_cosigner.go: sign (lines 240-246), HRSTKey.Less, GetEphemeralSecretParts"]}
{"id": "C15", "title": "Metadata memory is bounded", "statement": "The number of HRST entries a cosigner holds in memory is bounded regardless of requests received.", "quantifier": "every history of requests", "why_tests_cant": "unbounded histories", "anchors": ["signer/local_cosigner.go: hrsMeta, dealShares"]}
{"id": "C16", "title": "Nonce state of different timestamps is independent", "statement": "Setting secret parts for one height/round/step/timestamp does not change the nonce share used for a different timestamp.", "quantifier": "every history of set/get requests", "why_tests_cant": "depends on slice aliasing between map entries", "anchors": ["signer/local_cosigner.go: setEphemeralSecretPart (lines 442-454), dealShares"]}
{"id": "C17", "title": "The watermark check uses the signed bytes, not the caller's claim", "statement": "Whether a cosigner signs, and the height/round/step it records, depend only on the sign bytes in the request and its state, never on the height/round/step claimed alongside; a recorded HRS always equals the HRS encoded in the recorded sign bytes.", "quantifier": "every request with arbitrary claimed HRST", "why_tests_cant": "adversarial inputs", "anchors": ["signer/local_cosigner.go: SetEphemeralSecretPartsAndSign, sign"]}
{"id": "C18", "title": "Height/round/step extraction is correct", "statement": "For every vote or proposal that can be turned into sign bytes, UnpackHRST on these sign bytes returns exactly its height, round, step and timestamp (nanoseconds).", "quantifier": "all votes/proposals, chain IDs, block IDs and valid timestamps", "why_tests_cant": "infinite message domain, byte-level ambiguity between message types", "anchors": ["signer/Serialization.go: UnpackHRST", "signer/sign_state.go: CanonicalVoteToStep"]}
{"id": "C19", "title": "Vote and proposal sign bytes are domain separated", "statement": "No vote and proposal ever have equal sign bytes, for any chain IDs.", "quantifier": "all votes and proposals", "why_tests_cant": "infinite domain", "anchors": ["signer/Serialization.go: UnpackHRST", "signer/threshold_validator.go: SignVote, SignProposal"]}
{"id": "C20", "title": "Sign bytes determine the message", "statement": "Decoding the sign bytes of a canonical vote (proposal) gives back exactly that vote (proposal); hence two different canonical votes, or equal votes for different chain IDs, never share sign bytes.", "quantifier": "all canonical votes and proposals", "why_tests_cant": "infinite domain, variable-length encodings", "anchors": ["signer/sign_state.go: checkVoteOnlyDifferByTimestamp", "signer/Serialization.go: UnpackHRST"]}
{"id": "C21", "title": "OnlyDifferByTimestamp is exact", "statement": "The timestamp check accepts exactly when both byte strings decode as a vote (prevote/precommit step) or proposal (propose step) and every field other than the timestamp is equal; any other step is refused; differing block IDs are always refused.", "quantifier": "every step value and every pair of byte strings", "why_tests_cant": "infinite domain of byte strings", "anchors": ["signer/sign_state.go: onlyDifferByTimestamp, checkVoteOnlyDifferByTimestamp, checkProposalOnlyDifferByTimestamp"]}
{"id": "C22", "title": "Malformed sign bytes never crash the cosigner", "statement": "UnpackHRST, and therefore SetEphemeralSecretPartsAndSign, returns a value or an error for every byte string; it never panics.", "quantifier": "every byte string", "why_tests_cant": "tests use well-formed votes only", "anchors": ["signer/Serialization.go: UnpackHRST", "signer/sign_state.go: CanonicalVoteToStep"]}
{"id": "C23", "title": "RPC conversions are lossless", "statement": "Converting an HRST key, a block or a secret part to its protobuf form and back yields the original value for every representable ID, step and nanosecond timestamp.", "quantifier": "all values", "why_tests_cant": "integer width conversions (int->int32, int8->int32, time->int64)", "anchors": ["signer/Cosigner.go: toProto, HRSTKeyFromProto, CosignerEphemeralSecretPartFromProto", "signer/threshold_validator.go: Block.toProto", "signer/grpc_server.go: SignBlock"]}
{"id": "C24", "title": "Privval framing round-trips", "statement": "ReadMsg on the bytes written by WriteMsg returns the same message and leaves exactly the following bytes unread, for any concatenation of messages up to 10 KiB; longer messages are refused.", "quantifier": "every sequence of messages", "why_tests_cant": "infinite streams", "anchors": ["signer/Serialization.go: ReadMsg, WriteMsg"]}
{"id": "C25", "title": "A newly assembled signature is always verified", "statement": "Every signature the leader assembles and releases verifies under the validator public key for exactly the sign bytes of the request.", "quantifier": "every behaviour of peers (late, wrong, missing, malicious responses) and every schedule of goroutines", "why_tests_cant": "peer and schedule nondeterminism", "anchors": ["signer/threshold_validator.go: SignBlock (lines 444-453)"]}
{"id": "C26", "title": "Success means a signature", "statement": "Whenever SignVote/SignProposal/SignBlock returns without error, it returns a signature valid for the returned message.", "quantifier": "every request and history of the leader", "why_tests_cant": "only specific histories (cached, regressed, proposal) break it", "anchors": ["signer/threshold_validator.go: SignBlock, getExistingBlockSignature"]}
{"id": "C27", "title": "At most one signing attempt per height/round/step", "statement": "On one leader, while it runs, the signing protocol is started at most once per height/round/step, except for votes that differ only by timestamp from an already recorded signature at that height/round/step.", "quantifier": "every interleaving of concurrent SignBlock calls and raft events", "why_tests_cant": "schedules", "anchors": ["signer/threshold_validator.go: SignBlock (lines 323-361), SaveLastSignedStateInitiated"]}
{"id": "C28", "title": "Exactly threshold participants, parts only among them", "statement": "When the signing phase starts, exactly `threshold` cosigners (the leader's own and the first threshold-1 peers that answered) take part, and each is sent only parts addressed to it, at most one per participant, each from a participant.", "quantifier": "every arrival order of peer responses, any number of failing peers, any response contents", "why_tests_cant": "schedules and responses unbounded", "anchors": ["signer/threshold_validator.go: waitForPeerEphemeralShares, waitForPeerSetEphemeralSharesAndSign, SignBlock"]}
{"id": "C29", "title": "No signature released below the validator watermark", "statement": "A freshly assembled signature is only released if its height/round/step was not below the validator's last signed state at the moment it was recorded, and after release the last signed state is at least that height/round/step.", "quantifier": "every interleaving of SignBlock calls and raft events", "why_tests_cant": "schedules", "anchors": ["signer/threshold_validator.go: SignBlock (lines 455-476)"]}
{"id": "C30", "title": "A failed attempt can be retried", "statement": "If a signing attempt for a height/round/step fails (for instance by timeout), a later request for the same block on the same leader can still obtain a signature.", "quantifier": "every history", "why_tests_cant": "liveness over histories", "anchors": ["signer/threshold_validator.go: SignBlock (SameHRSError branch)"]}
{"id": "C31", "title": "A repeated proposal never triggers a second signing", "statement": "If a proposal signature is recorded for a height and round, any further proposal request at that height and round is answered from the record without contacting cosigners, whatever its content.", "quantifier": "every proposal request and cache state", "why_tests_cant": "history dependent", "anchors": ["signer/threshold_validator.go: getExistingBlockSignature"]}
{"id": "C32", "title": "The leader alone never releases two conflicting signatures", "statement": "While a validator process runs, any two signatures it released for the same height/round/step are for sign bytes equal up to timestamp.", "quantifier": "every interleaving of SignBlock calls and raft events", "why_tests_cant": "schedules, leadership changes", "anchors": ["signer/threshold_validator.go: SignBlock, SaveLastSignedState", "signer/raft_events.go: handleLSSEvent"]}
{"id": "C33", "title": "Followers proxy and keep their state", "statement": "A node that is not the raft leader answers SignBlock with exactly what the leader returned (signature or error) and the caller's timestamp, without changing its own sign states; with no raft instance it always refuses.", "quantifier": "every follower state, request and leader answer", "why_tests_cant": "all answers", "anchors": ["signer/threshold_validator.go: SignBlock (lines 293-312)", "signer/raft_events.go: LeaderSignBlock"]}
{"id": "C34", "title": "The cluster never equivocates", "statement": "With n cosigners and threshold t > n/2, no two sign byte strings that are for the same height/round/step but differ in anything other than the timestamp can both have signature shares from t distinct cosigners - even with several simultaneous or malicious leaders and arbitrary message loss, duplication and reordering.", "quantifier": "every n, every t > n/2, every global history", "why_tests_cant": "global interleavings of an unbounded cluster", "anchors": ["signer/local_cosigner.go: sign", "docs/signing.md: t > n/2", "signer/threshold_validator.go: SignBlock"]}
{"id": "C35", "title": "Accepted configurations guarantee quorum intersection", "statement": "Every cosigner configuration accepted by validation has threshold > n/2, threshold >= 1 and threshold <= n.", "quantifier": "every configuration", "why_tests_cant": "all integers", "anchors": ["cmd/horcrux/cmd/config.go: validateCosignerConfig, validateCosignerPeers", "docs/signing.md"]}
{"id": "C36", "title": "No double sign across a crash", "statement": "A cosigner that crashes at any point and restarts from its state file never signs data conflicting with a share it released before the crash.", "quantifier": "every crash point and every schedule of the asynchronous save", "why_tests_cant": "crash points between response and disk write", "anchors": ["signer/sign_state.go: Save (go signState.save()), save, LoadSignState"]}
{"id": "C37", "title": "The state file never moves backwards", "statement": "Successive contents of the state file on disk have non-decreasing height/round/step, and once all writes have finished the file holds the latest accepted state.", "quantifier": "every schedule of the save goroutines", "why_tests_cant": "goroutine races", "anchors": ["signer/sign_state.go: Save, save"]}
{"id": "C38", "title": "The state file only holds values that were in memory", "statement": "The height/round/step on disk is never above the in-memory watermark and never below the file's initial contents; whole-record writes are atomic.", "quantifier": "every schedule and crash point", "why_tests_cant": "schedules", "anchors": ["signer/sign_state.go: save, tempfile.WriteFileAtomic"]}
{"id": "C39", "title": "State files round-trip", "statement": "Loading a state file written by save returns the same height, round, step, ephemeral key, signature and sign bytes, with exactly the last record in the cache; LoadOrCreateSignState on a loadable file does not modify it, and on a missing one yields the zero state.", "quantifier": "every sign state", "why_tests_cant": "all byte strings and integers", "anchors": ["signer/sign_state.go: save, LoadSignState, LoadOrCreateSignState"]}
{"id": "C40", "title": "The replicated store is the fold of its log", "statement": "After applying any log of commands, Get(k) returns the value of the last set of k not followed by a delete of k, and the empty string otherwise; malformed commands and unknown operations change nothing; the last-signed-state key is never stored.", "quantifier": "every log", "why_tests_cant": "unbounded logs", "anchors": ["signer/raft_store.go: Apply, applySet, applyDelete, Get", "signer/raft_events.go: shouldRetain"]}
{"id": "C41", "title": "Replaying last-signed-state events is harmless", "statement": "Applying any sequence of last-signed-state events, in any order, with duplicates or replays of old logs, leaves the watermark at the maximum of the initial state and all events, and re-applying any already applied event changes nothing.", "quantifier": "every event sequence, every permutation and duplication", "why_tests_cant": "unbounded histories", "anchors": ["signer/raft_events.go: handleLSSEvent", "signer/sign_state.go: Save"]}
{"id": "C42", "title": "Snapshot plus log suffix equals full replay", "statement": "A node that restores a snapshot and applies the remaining log ends in the same state as a node that applied the whole log.", "quantifier": "every log and every snapshot point", "why_tests_cant": "unbounded logs", "anchors": ["signer/raft_store.go: Snapshot, Restore, Persist", "signer/raft_events.go: handleLSSEvent"]}
{"id": "C43", "title": "A released signature has been replicated", "statement": "When SignBlock returns a freshly assembled signature, the last-signed-state event for it has been committed to the raft log.", "quantifier": "every leadership change timing", "why_tests_cant": "leadership may be lost between the check and the emit", "anchors": ["signer/threshold_validator.go: SignBlock (lines 470-476)", "signer/raft_store.go: Set, Emit"]}
{"id": "C44", "title": "Replicas agree", "statement": "Any two nodes that applied the same log hold the same key-value map, whatever their local sign states and whatever order Go iterates maps.", "quantifier": "every log, every pair of initial local states", "why_tests_cant": "unbounded", "anchors": ["signer/raft_store.go: Apply"]}
{"id": "C45", "title": "Remote signer responses are faithful", "statement": "For every request the remote signer answers with the matching response kind; a sign response contains an error and an empty vote/proposal if the validator failed, and otherwise no error and the request's own vote/proposal with only signature and timestamp replaced; sign bytes always use the configured chain ID.", "quantifier": "every request and validator behaviour", "why_tests_cant": "all messages", "anchors": ["signer/remote_signer.go: handleRequest, handleSignVoteRequest, handleSignProposalRequest, handlePubKeyRequest"]}
{"id": "C46", "title": "The remote signer always answers", "statement": "Every request read from the connection, however malformed, gets a response; the process never panics.", "quantifier": "every message", "why_tests_cant": "malformed messages", "anchors": ["signer/remote_signer.go: loop, handleRequest", "signer/sign_state.go: VoteToStep"]}
{"id": "C47", "title": "Peer list validation is exact", "statement": "A peer list is accepted for a number of shares if and only if all share IDs are pairwise distinct, lie in 1..shares and there are fewer peers than shares.", "quantifier": "every list of peers and number of shares", "why_tests_cant": "unbounded lists", "anchors": ["cmd/horcrux/cmd/config.go: validateCosignerPeers, duplicatePeers"]}
{"id": "C48", "title": "Config commands preserve validity", "statement": "Starting from a configuration accepted by validation, every sequence of successful `peers add/remove`, `set-shares`, `nodes add/remove` commands yields a configuration accepted by validation; a failing command leaves the configuration unchanged.", "quantifier": "every sequence of commands and arguments", "why_tests_cant": "unbounded command histories", "anchors": ["cmd/horcrux/cmd/config.go: addPeersCmd, removePeersCmd, setSharesCmd, addNodesCmd, removeNodesCmd, diffSetCosignerPeer, diffSetChainNode"]}
{"id": "C49", "title": "Chain node validation rejects every malformed address", "statement": "validateChainNodes returns an error whenever some node address is malformed.", "quantifier": "every list of addresses", "why_tests_cant": "position dependent", "anchors": ["cmd/horcrux/cmd/config.go: validateChainNodes"]}
{"id": "C50", "title": "Peer flag parsing is exact", "statement": "Parsing the rendering `addr|id,addr|id,...` of a peer list (addresses without ',' and '|') gives back the list; any string with a malformed entry is rejected.", "quantifier": "every peer list and every string", "why_tests_cant": "infinite strings", "anchors": ["cmd/horcrux/cmd/config.go: peersFromFlag"]}
{"id": "C51", "title": "`chain-id set` is crash safe for the share watermark", "statement": "If `chain-id set` is interrupted after any of its steps, a subsequent cosigner start either loads the original share sign state or refuses to start; it never starts with an empty share watermark.", "quantifier": "every crash point and file system state", "why_tests_cant": "crash points", "anchors": ["cmd/horcrux/cmd/config.go: setChainIDCmd", "cmd/horcrux/cmd/cosigner.go: StartCosignerCmd"]}
{"id": "C52", "title": "An accepted configuration never indexes out of range", "statement": "With a configuration accepted by validation, storing a peer's part or signature never panics with an index out of range.", "quantifier": "every configuration and request", "why_tests_cant": "share IDs may exceed the number of configured cosigners", "anchors": ["signer/threshold_validator.go: waitForPeerSetEphemeralSharesAndSign (peerIdx)", "signer/local_cosigner.go: setEphemeralSecretPart (SourceID-1)", "cmd/horcrux/cmd/cosigner.go: total"]}
{"id": "C53", "title": "create-shares produces a consistent key set", "statement": "create-shares with n shares produces exactly n files with IDs 1..n, the same validator public key, and such that the RSA public key listed for ID i in every file is the public part of file i's RSA key.", "quantifier": "every threshold and number of shares", "why_tests_cant": "all integers (uint8 truncation)", "anchors": ["signer/cosigner_key_shares.go: CreateCosignerShares, makeRSAKeys", "cmd/horcrux/cmd/key2shares.go"]}
{"id": "C54", "title": "Any threshold shares reconstruct the key", "statement": "Combining the shares of any t distinct cosigners with the library's coefficients yields the original secret, for any dealing polynomial, and likewise for combining signature shares.", "quantifier": "every field, secret, polynomial, threshold and t-subset of IDs", "why_tests_cant": "exponentially many subsets and all secrets", "anchors": ["signer/cosigner_key_shares.go: CreateCosignerShares", "signer/threshold_validator.go: CombineShares call"]}
{"id": "C55", "title": "Fewer than threshold shares reveal nothing", "statement": "Any t-1 shares are consistent with every possible secret, each with exactly one dealing polynomial.", "quantifier": "every set of t-1 IDs, share values and candidate secret", "why_tests_cant": "a statement about all polynomials", "anchors": ["signer/cosigner_key_shares.go: CreateCosignerShares", "signer/local_cosigner.go: dealShares"]}
{"id": "C56", "title": "Threshold signatures verify", "statement": "If the t participants all use the parts dealt by exactly those t participants, the combined signature satisfies the Ed25519 verification equation for the validator key.", "quantifier": "every key polynomial, nonce polynomials, participant set and challenge", "why_tests_cant": "all field elements and subsets", "anchors": ["signer/local_cosigner.go: sign", "signer/threshold_validator.go: SignBlock (lines 426-453)"]}
{"id": "C57", "title": "Single signer never double signs", "statement": "In single-signer mode no two signatures for conflicting data at the same height/round/step are ever released, including across restarts.", "quantifier": "every history with restarts", "why_tests_cant": "restart histories", "anchors": ["cmd/horcrux/cmd/signer.go: StartSignerCmd (LoadFilePVEmptyState)"]}
{"id": "C58", "title": "Leader election targets the requested peer", "statement": "`elect ID` transfers leadership to the peer with that ID or fails; without ID to any candidate.", "quantifier": "every peer list and requested ID", "why_tests_cant": "all IDs", "anchors": ["signer/grpc_server.go: TransferLeadership", "cmd/horcrux/cmd/leader_election.go"]}
{"id": "C59", "title": "Join leaves one entry per node", "statement": "After a successful Join(id, addr) the raft configuration contains (id, addr), no other server with that ID or that address, and all unrelated servers unchanged.", "quantifier": "every configuration", "why_tests_cant": "all lists", "anchors": ["signer/raft_store.go: Join"]}
{"id": "C60", "title": "`state set` never lowers the watermark", "statement": "`state set h` never lowers the height/round/step stored in either state file; when it succeeds both files hold height h or were already above it.", "quantifier": "every file contents and argument", "why_tests_cant": "all integers", "anchors": ["cmd/horcrux/cmd/state.go: setStateCmd", "signer/sign_state.go: Save"]}
{"id": "C61", "title": "A share always hides behind the cosigner's own nonce", "statement": "Every fresh signature share uses a nonce to which the signing cosigner itself contributed a random share, so that no single peer that knows its own part can solve the response for the private key share.", "quantifier": "every run with one malicious but correctly configured peer", "why_tests_cant": "adversarial runs; a mutex-level sequence of two requests suffices", "anchors": ["signer/local_cosigner.go: setEphemeralSecretPart", "signer/local_cosigner.go: sign"]}
{"id": "C62", "title": "An unreadable or incomplete state file never resets the watermark", "statement": "Starting from a state file that is damaged, cut off or lacks fields either fails or keeps the recorded height/round/step; it never continues from height 0.", "quantifier": "every file content", "why_tests_cant": "all byte strings", "anchors": ["signer/sign_state.go: LoadSignState, LoadOrCreateSignState", "cmd/horcrux/cmd/cosigner.go: StartCosignerCmd"]}
{"id": "C63", "title": "`chain-id set` never lowers a watermark", "statement": "After `chain-id set` the watermark stored for every chain ID is at least what it was before.", "quantifier": "every home directory and chain ID", "why_tests_cant": "state files of several chains in one directory", "anchors": ["cmd/horcrux/cmd/config.go: setChainIDCmd"]}
{"id": "C64", "title": "`config init` leaves exactly one share ID for the local node", "statement": "A cosigner configuration written by `config init` lists n peers with distinct IDs in 1..n+1, so exactly one ID is left for the local cosigner.", "quantifier": "every argument", "why_tests_cant": "all strings; a pigeonhole argument", "anchors": ["cmd/horcrux/cmd/config.go: initCmd, validateCosignerPeers"]}
{"id": "C65", "title": "`state set` works on the configured home directory", "statement": "`state set h` with --home operates on the state files of that directory.", "quantifier": "every directory", "why_tests_cant": "all directories", "anchors": ["cmd/horcrux/cmd/state.go: setStateCmd", "cmd/horcrux/cmd/root.go: initConfig"]}
{"id": "C66", "title": "A healthy cluster signs", "statement": "With key files from create-shares for t-of-n, a configuration listing all cosigners, and t cosigners that answer, a vote or proposal above all recorded states is signed: SignBlock returns a signature that verifies under the validator's public key, whichever t cosigners answer and in whatever order.", "quantifier": "every key, threshold, number of shares, quorum, order of answers, randomness", "why_tests_cant": "all keys, randomness, quorums and orders", "anchors": ["signer/threshold_validator.go: SignBlock", "signer/local_cosigner.go: GetEphemeralSecretParts, SetEphemeralSecretPartsAndSign", "signer/cosigner_key_shares.go: CreateCosignerShares", "cmd/horcrux/cmd/cosigner.go: StartCosignerCmd"]}
{"id": "C67", "title": "create-shares only makes usable key sets", "statement": "When create-shares reports success for threshold t and n shares, then 1 <= t <= n, n files exist, any t of them suffice to sign and fewer reveal nothing about the key.", "quantifier": "every pair of arguments", "why_tests_cant": "all integers (uint8 truncation, missing comparison)", "anchors": ["signer/cosigner_key_shares.go: CreateCosignerShares", "cmd/horcrux/cmd/key2shares.go: validateCreateCosignerShares"]}
{"id": "C68", "title": "A key file is read back as it was written", "statement": "LoadCosignerKey of a file written by create-shares gives exactly the key that was written, whatever the order of members; key files from before the protobuf migration still load; a file that does not hold a complete key is refused without a panic.", "quantifier": "every key, every file", "why_tests_cant": "all files and keys, including legacy encodings", "anchors": ["signer/cosigner_key.go: MarshalJSON, UnmarshalJSON, LoadCosignerKey"]}
{"id": "C69", "title": "A started cosigner is in a raft cluster with its configured peers", "statement": "The raft membership of a running cosigner is itself and its configured peers; nodes configured from one plan have the same membership, so any two majorities share a node.", "quantifier": "every configuration, restarts after configuration changes", "why_tests_cant": "all configurations; the bootstrap error is dropped", "anchors": ["signer/raft_store.go: Open", "cmd/horcrux/cmd/cosigner.go: StartCosignerCmd"]}
{"id": "C70", "title": "No order of events at start crashes the process", "statement": "Whatever the interleaving of the main goroutine, the raft goroutine, applied entries and calls from other cosigners, the process does not panic while it starts, and entries are applied completely and in order.", "quantifier": "every interleaving", "why_tests_cant": "data race between goroutines", "anchors": ["cmd/horcrux/cmd/cosigner.go: StartCosignerCmd", "signer/raft_store.go: init, OnStart, SetThresholdValidator", "signer/raft_events.go: handleLSSEvent", "signer/grpc_server.go: SignBlock"]}
{"id": "C71", "title": "`state set` is refused exactly while a signer runs", "statement": "`state set` changes nothing and reports an error if a signer is running on the machine, and is not refused for that reason otherwise.", "quantifier": "every process table", "why_tests_cant": "depends on all running processes and on the platform's pgrep", "anchors": ["cmd/horcrux/cmd/state.go: isRunning, setStateCmd"]}
{"id": "C72", "title": "No history of a whole cluster yields conflicting signatures", "statement": "Take a cluster of hosts, each running the validator, the cosigner, their state files and a raft node. In any history of client calls, calls between cosigners, lost, delayed and repeated messages, leader changes, raft entries, file writes, crashes and restarts, with a minority of faulty cosigners (2t > n + faulty), every signature any host hands out verifies for a message that a threshold of cosigners signed, and two votes for the same height, round and step that were signed differ at most in their timestamps.", "quantifier": "every history of the whole cluster, every configuration, every set of faulty cosigners", "why_tests_cant": "needs all interleavings of several processes, networks, disks and crashes", "anchors": ["signer/threshold_validator.go: SignBlock, SaveLastSignedState", "signer/local_cosigner.go: SetEphemeralSecretPartsAndSign, LoadSignStateIfNecessary", "signer/sign_state.go: Save, LoadOrCreateSignState", "signer/raft_store.go: Apply", "signer/raft_events.go: handleLSSEvent", "cmd/horcrux/cmd/cosigner.go: StartCosignerCmd"]}
{"id": "C73", "title": "A healthy cluster keeps signing", "statement": "Take a cluster of at least two cosigners, set up from the shares and keys the key commands write. In any state the cluster reaches, after any history, a request above what its leader and the answering cosigners recorded is answered with a valid signature if a threshold of cosigners answers, without a restart or operator action, whichever host leads and whichever threshold answers, and the new state is handed to raft. So any number of rising requests are all answered, and once raft caught up every host's validator and cosigner are at exactly the level of the last one.", "quantifier": "every history before, every sequence of rising requests, every choice of leaders and answering cosigners, every threshold and cluster size of at least two", "why_tests_cant": "needs all reachable states of all hosts and sequences of any length", "anchors": ["signer/threshold_validator.go: SignBlock, SaveLastSignedState", "signer/local_cosigner.go: GetEphemeralSecretParts, SetEphemeralSecretPartsAndSign", "signer/raft_store.go: Apply", "signer/raft_events.go: handleLSSEvent"]}
{"id": "C74", "title": "A change of leader in the middle of a signature does not lose the vote", "statement": "If a leader stops at any point of a request (crash, lost leadership, lost messages) and another host leads, a threshold of cosigners that answers is enough for the same request to be answered with a valid signature.", "quantifier": "every point at which the first attempt stops, every next leader, every threshold that answers", "why_tests_cant": "needs every interleaving of an unfinished attempt with the next one, on several hosts", "anchors": ["signer/threshold_validator.go: SignBlock", "signer/local_cosigner.go: sign, GetEphemeralSecretParts, SetEphemeralSecretPartsAndSign", "signer/raft_events.go: handleLSSEvent"]}
{"id": "C75", "title": "A request that was answered is answered again", "statement": "Once a signature was handed out for a request, the same request is answered with a valid signature again: by the same host, and by any other host that has the recorded state, whichever cosigners answer.", "quantifier": "every history after the first answer, every host", "why_tests_cant": "needs histories over several hosts; depends on state spread over the validator, raft and the cosigners", "anchors": ["signer/threshold_validator.go: SignBlock, SaveLastSignedStateInitiated, getExistingBlockSignature", "signer/local_cosigner.go: sign, SaveLastSignedState", "signer/raft_events.go: handleLSSEvent"]}
{"id": "C76", "title": "A connection to a chain node is a clean conversation, and lost connections are replaced", "statement": "A remote signer has one connection at a time. On each, requests are answered one by one in order, the answer goes to the connection its request came from, and nothing else happens in between. Whatever failed before, as soon as connecting and reading succeed again, requests are answered again.", "quantifier": "every sequence of failures and requests", "why_tests_cant": "needs all sequences of failures at every point of an endless loop", "anchors": ["signer/remote_signer.go: OnStart, loop"]}
{"id": "C77", "title": "A stopped remote signer signs nothing more and ends", "statement": "After Stop a remote signer answers no further request, closes its connection and its goroutine ends; on a termination signal every service is stopped.", "quantifier": "every point of the loop at which Stop is called", "why_tests_cant": "Stop can come between any two steps; blocking reads and dials", "anchors": ["signer/remote_signer.go: loop, StartRemoteSigners", "signer/services.go: WaitAndTerminate"]}
{"id": "C78", "title": "The signer closes every connection it opens", "statement": "At most one connection to a node is open at a time, and none after the signer has ended.", "quantifier": "every sequence of failures", "why_tests_cant": "needs failed handshakes, any number of times", "anchors": ["signer/remote_signer.go: loop"]}
{"id": "C79", "title": "A cluster set up with the documented commands works", "statement": "Running create-shares once, then config init and copying one share file on every machine that has no configuration yet, all commands succeed and so does cosigner start on every machine. The processes then form one cluster: they hold the shares of the one key, know exactly each other, start raft with the same members, record nothing above height 0, answer every rising sequence of requests, and with a threshold above half of the hosts never sign two conflicting votes while no host restarts.", "quantifier": "every threshold, cluster size, chain, address plan, --home flags and key file names; every rising sequence of requests; every history without restarts", "why_tests_cant": "needs all plans and all later histories; crosses every command and file format", "anchors": ["cmd/horcrux/cmd/key2shares.go: CreateCosignerSharesCmd", "cmd/horcrux/cmd/config.go: initCmd", "cmd/horcrux/cmd/cosigner.go: StartCosignerCmd", "cmd/horcrux/cmd/root.go: initConfig", "signer/threshold_validator.go: SignBlock"]}
{"id": "C80", "title": "Commands and signer use the same directory", "statement": "With the same --home flag, what state set and chain-id set change is what the next cosigner start uses, and starts with different --home flags use different state.", "quantifier": "every machine, every flag, every argument", "why_tests_cant": "needs every arrangement of directories and config files", "anchors": ["cmd/horcrux/cmd/root.go: initConfig", "cmd/horcrux/cmd/state.go: setStateCmd", "cmd/horcrux/cmd/config.go: setChainIDCmd", "cmd/horcrux/cmd/cosigner.go: StartCosignerCmd"]}
{"id": "C81", "title": "Commands report errors instead of crashing", "statement": "No command ends with a nil pointer dereference, whatever files are on the machine; where one does, nothing on disk is changed.", "quantifier": "every machine, every command with every argument", "why_tests_cant": "needs every combination of missing, unreadable and single-signer configurations with every command", "anchors": ["cmd/horcrux/cmd/root.go: initConfig", "cmd/horcrux/cmd/config.go: addNodesCmd, removeNodesCmd, addPeersCmd, removePeersCmd, setSharesCmd, setChainIDCmd", "cmd/horcrux/cmd/state.go: showStateCmd, setStateCmd"]}
{"id": "C82", "title": "No command lowers a recorded watermark", "statement": "After any command, successful or not, and after any start, every state file in every directory records at least the height, round and step it recorded before, and a signer that refused to start for want of a readable state does not start from zero.", "quantifier": "every machine, every command with every argument, every state file", "why_tests_cant": "needs every content of every state file in every directory", "anchors": ["cmd/horcrux/cmd/config.go: initCmd, setChainIDCmd", "cmd/horcrux/cmd/state.go: setStateCmd", "signer/sign_state.go: LoadOrCreateSignState", "cmd/horcrux/cmd/cosigner.go: StartCosignerCmd"]}
{"id": "C83", "title": "The address command prints addresses that other programs can read", "statement": "For any prefix, `cosigner address <prefix>` prints one JSON line with the address of the validator's key in hexadecimal, the key in the SDK's JSON and two bech32 texts that decode to (prefix+valcons, address) and (prefix+valconspub, amino-encoded key); all hosts of a cluster print the same line, and hosts with different keys print different lines.", "quantifier": "every machine, every 32 byte key, every prefix of any bytes", "why_tests_cant": "needs every key and every prefix, including unprintable and mixed-case ones", "anchors": ["cmd/horcrux/cmd/cosigner.go: AddressCmd", "signer/Config.go: PubKey"]}
{"id": "C84", "title": "Chain nodes never read a double vote", "statement": "Whatever chain nodes send to whatever hosts on whatever connections, any two signed votes they read back with the same type, height and round are for the same block ID; each verifies under the public key the hosts report, over the vote's own sign bytes.", "quantifier": "every cluster, every history of it (any calls, faulty cosigners below the bound, restarts), every number of remote signers and connections, every stream of requests and failures on them", "why_tests_cant": "composes the privval protocol, the remote signer, the threshold validator, the cosigners, raft and files; needs all interleavings", "anchors": ["signer/remote_signer.go: loop, handleRequest", "signer/threshold_validator.go: SignBlock, SignVote", "signer/local_cosigner.go: sign", "signer/Serialization.go: UnpackHRST"]}
{"id": "C85", "title": "Addresses in an accepted configuration are those listened on and dialed", "statement": "With a configuration that `config init` accepted, `cosigner start` listens on the port of its listen address; raft, the cosigner client and `elect` dial name and port of every host of the cluster; a chain node is dialed at the name and port given.", "quantifier": "every listen address, peer list and node list given to config init, every cluster plan", "why_tests_cant": "tests use tcp://host:port addresses of one machine; URL parsing, splitting and rejoining of host and port differ between the components for other spellings", "anchors": ["cmd/horcrux/cmd/config.go: configCmd init, validateCosignerConfig", "signer/raft_store.go: init, p2pURLToRaftAddress, Open", "signer/remote_cosigner.go: getGRPCClient", "cmd/horcrux/cmd/leader_election.go: leaderElectionCmd", "signer/remote_signer.go: loop"]}
{"id": "C86", "title": "A request repeated while the first one is being signed gets the same signature", "statement": "When a chain node repeats a sign request (after a reconnection, or two nodes ask for the same vote) while the leader is still collecting shares for it, the repeated request is answered with the signature of the first as soon as that one is made; it does not fail and no second signature is made.", "quantifier": "every run with a clock: any durations of the shares, any delays of the polling goroutine, any number of other calls and cosigner events", "why_tests_cant": "needs timing: the tests have no run in which a second call waits for a first one that is slow", "anchors": ["signer/threshold_validator.go: SignBlock (polling loop), getExistingBlockSignature, waitUntilCompleteOrTimeout"]}
{"id": "C87", "title": "Chain nodes of a single signer never read a double vote", "statement": "Whatever the chain nodes of `signer start` send on whatever connections, and however often the process is restarted, any two signed votes they read back with the same type, height and round are the same vote with the same signature (likewise proposals); each signature is one of the sign bytes of the message it comes with; and a request above the last signed height, round and step is answered with its signature.", "quantifier": "every number of chain nodes, every stream of requests, every failure of connections and of writing the state file, every number of lives of the process", "why_tests_cant": "composes the privval protocol, the connection loops, PvGuard and FilePV with its state file; needs all interleavings and restarts", "anchors": ["cmd/horcrux/cmd/signer.go: StartSignerCmd", "signer/PvGuard.go: SignVote, SignProposal", "signer/remote_signer.go: loop, handleRequest"]}
{"id": "C88", "title": "The configured time-out is a documented duration and bounds the wait for raft", "statement": "`config init` accepts a time-out without fractions exactly when it is a sign and numbers with units (ns, us, ms, s, m, h) within int64 nanoseconds, or a signed 0, and keeps the text; `cosigner start` reads the same duration; a proposal of the leader that raft does not take by then is given up at that time, one that it takes by then goes through.", "quantifier": "every text of --timeout, every time at which raft takes the entry (or never)", "why_tests_cant": "tests use 1500ms; the grammar, its overflow bounds and the role of zero and negative durations need every text", "anchors": ["cmd/horcrux/cmd/config.go: initCmd (--timeout), validateCosignerConfig", "signer/Cosigner.go: StartCosignerCmd", "signer/raft_store.go: Set, Delete (raft.Apply)"]}
{"id": "C89", "title": "A request handed on to the leader is not passed around", "statement": "A host that does not lead hands a sign request on to the leader it knows, and the request is handed on at most once; in any case it only goes on to leaders of later terms, never goes back and forth between hosts, and stays with a host that leads.", "quantifier": "every number of hosts, every history of elections, stepping down, lost heartbeats and restarts before and while the request is under way", "why_tests_cant": "needs elections between the hops of one request and hosts with old knowledge", "anchors": ["signer/threshold_validator.go: SignBlock", "signer/raft_events.go: getLeaderGRPCClient, LeaderSignBlock", "signer/grpc_server.go: SignBlock"]}
{"id": "C90", "title": "Shares and signatures between cosigners arrive as they were sent", "statement": "A nonce share that a cosigner encrypts for another with the RSA public key from its key file is decrypted by the other to the same bytes with the private key from its own file, and the signature under the message is accepted; this holds for every cosigner whose key file loads. A signature accepted for one part is not accepted for another part, unless two different inputs with the same hash are exhibited.", "quantifier": "every RSA key with any primes and exponents, every hash function, share, digest, random seed, salt and blinding number", "why_tests_cant": "tests take one generated key and a few messages; needs all primes, all seeds and all blinding numbers", "anchors": ["signer/local_cosigner.go: GetEphemeralSecretPart, setEphemeralSecretPart", "signer/cosigner_key_shares.go: makeRSAKeys", "signer/cosigner_key.go: MarshalJSON, UnmarshalJSON"]}
{"id": "C91", "title": "Messages between cosigners mean what the protocol definition says, whoever sends them", "statement": "A message of the cosigner protocol with fields in any order, repeated, missing, of unknown numbers or of other wire types (from a newer version or a faulty peer) is understood as proto3 prescribes: unknown fields are ignored, the last value counts, pieces of a message are merged, missing fields are zero; a block request is refused exactly when a chain ID given in it is not UTF-8.", "quantifier": "every list of fields with any numbers, values and wire types, for each of the six messages", "why_tests_cant": "tests send the messages the same version builds; needs arbitrary lists of fields", "anchors": ["signer/proto/cosigner_grpc_server.proto: HRST, EphemeralSecretPart, Block and the requests and responses", "signer/grpc_server.go: SignBlock, SetEphemeralSecretPartsAndSign, GetEphemeralSecretParts", "signer/remote_cosigner.go: GetEphemeralSecretParts, SetEphemeralSecretPartsAndSign", "signer/Cosigner.go: HRSTKeyFromProto, CosignerEphemeralSecretPartsFromProto"]}
{"id": "C92", "title": "Sign bytes and requests of a chain node mean what tendermint's definitions say, whoever sends them", "statement": "Sign bytes with fields in any order, repeated, unknown or missing, and with bytes after the message, are read by a cosigner as a proposal if they are one, otherwise as a vote, with the last height, round and time given, and are refused if a declared field has another wire type or a time is out of range; the comparison with the last signed message passes exactly if both mean the same but for the time. Requests of a chain node with such fields are read as the vote, proposal, key request or ping they mean.", "quantifier": "every list of fields with any numbers, values and wire types, every block ID and vote given in pieces, every input after the message", "why_tests_cant": "tests use messages the same library encoded; a cosigner gets sign bytes from a leader it need not trust", "anchors": ["signer/Serialization.go: UnpackHRST, ReadMsg", "signer/sign_state.go: checkVoteOnlyDifferByTimestamp, checkProposalOnlyDifferByTimestamp", "signer/remote_signer.go: handleRequest"]}
{"id": "C93", "title": "With Ed25519 and RSA as their standards define them, the cluster makes valid signatures and hides the key share", "statement": "A cluster set up with create-shares from a tendermint key answers all rising requests with signatures that RFC 8032 accepts for the public key of the seed in the key file; whatever faulty cosigners do, every signature handed out is one that RFC 8032 accepts and a threshold of cosigners took part; up to threshold-2 cooperating peers that keep to the protocol learn nothing about a key share. Nothing is assumed of the signature scheme or of RSA other than that the standards are implemented.", "quantifier": "every seed, every pair of hash functions of the right output length, all RSA keys of different primes, every threshold and number of cosigners, every run", "why_tests_cant": "needs the group law of the curve, the primality of 2^255-19 and of the group order, and interpolation in all generality; tests sign a few messages with a few keys", "anchors": ["signer/cosigner_key_shares.go: CreateCosignerShares", "signer/local_cosigner.go: sign, dealShares, getEphemeralSecretPart, setEphemeralSecretPart", "signer/threshold_validator.go: SignBlock", "cmd/horcrux/cmd/key2shares.go: CreateCosignerSharesCmd"]}
{"id": "C94", "title": "A state file is read as its text says, however it was written", "statement": "A sign state file is loaded exactly if its bytes are a JSON text (RFC 8259) whose value is an object (or null) with members of the right kinds: height and round as strings with integers of 64 bits, step as an integer of 8 bits, signature and ephemeral key in base64 (line breaks in it are skipped) or as arrays of numbers, sign bytes in hexadecimal. The state then has the values of the last members of these names, whatever the order, blanks, escapes and other members are, and zero values for missing ones; every other file is refused.", "quantifier": "every sequence of bytes as content of the file", "why_tests_cant": "tests read files the program wrote; operators edit, restore and truncate these files and a wrong reading allows a double signature; needs all texts", "anchors": ["signer/sign_state.go: LoadSignState, LoadOrCreateSignState, SignState, SignStateConsensus"]}
{"id": "C95", "title": "Log entries, snapshots and key files mean what their texts say, whoever wrote them", "statement": "Whatever bytes the entries of the replicated log are (from another version, another implementation or a faulty leader), every node's map is given by the last entry whose JSON text sets or deletes the key, its last-signed state is the highest of all event texts in the log, and all other entries change nothing; a snapshot is restored to the map its text describes and leaves the sign states; a key file is loaded as the key whose members its text gives. Members are recognised by names without regard to case, the last one counts, null and missing members leave defaults, and one member of a wrong type refuses the whole text.", "quantifier": "every sequence of log entries with any bytes, every snapshot and key file text", "why_tests_cant": "tests decode what the same version encoded; needs all texts, including repeated, differently spelled and ill-typed members", "anchors": ["signer/raft_store.go: Apply, applySet, applyDelete, Restore", "signer/raft_events.go: handleLSSEvent", "signer/cosigner_key.go: UnmarshalJSON, LoadCosignerKey"]}
{"id": "C96", "title": "Calls for a signature leave no goroutine behind and cannot crash on late answers", "statement": "However peers answer (in time, late, with an error, or not until the deadline of their call) and whenever the two timers of SignBlock fire, no wait group is counted below zero, no late answer writes the map of parts while the signing goroutines read it without the lock, every call returns after boundedly many actions, and when every remote call has ended no goroutine of any returned call is left, however many calls there were.", "quantifier": "every threshold, number of peers and calls, every interleaving of answers, timers and goroutines", "why_tests_cant": "a goroutine that waits for ever shows only as growing memory over weeks of failed rounds; needs all orders of answers and time-outs", "anchors": ["signer/threshold_validator.go: SignBlock, waitForPeerEphemeralShares, waitForPeerSetEphemeralSharesAndSign, waitUntilCompleteOrTimeout"]}
{"id": "C97", "title": "A cosigner process never locks up", "statement": "Whatever requests of chain nodes, calls of other cosigners and log entries come in, and however goroutines are scheduled, there is no deadlock: each goroutine that has not ended can go on or waits, directly or through others, for one that can (mutexes of the guard, the validator, the cosigner, the store and of single calls, and the wait for a raft entry to be applied, which itself needs mutexes); no mutex is released by one who does not hold it; and when nothing new comes in, everything that was begun ends and all mutexes are free.", "quantifier": "every number of requests, calls and entries, every interleaving", "why_tests_cant": "a deadlock needs a particular interleaving of connections, calls and raft's own goroutine and shows as a validator that stops signing; needs all interleavings", "anchors": ["signer/PvGuard.go", "signer/threshold_validator.go: SignBlock, getExistingBlockSignature, SaveLastSignedState", "signer/local_cosigner.go: sign, getEphemeralSecretPart, setEphemeralSecretPart, SaveLastSignedState", "signer/sign_state.go: Save, GetFromCache, GetErrorIfLessOrEqual", "signer/raft_store.go: Set, Apply, applySet, Snapshot, Get", "signer/raft_events.go: handleLSSEvent"]}
{"id": "C98", "title": "State shared by goroutines is not used by two at once", "statement": "No goroutine of a cosigner process uses a shared map (signature caches, nonces of the cosigner, the store's map) or the fields of a sign state while another one writes them; for maps Go ends the process when it notices.", "quantifier": "every number of requests, calls and entries, every interleaving", "why_tests_cant": "a race shows only under a particular interleaving, as a crash or a mixed state; needs all interleavings", "anchors": ["signer/sign_state.go: Save, save, GetFromCache", "signer/threshold_validator.go: newBeyondBlockError, getExistingBlockSignature", "signer/local_cosigner.go: sign, dealShares, getEphemeralSecretPart, setEphemeralSecretPart", "signer/raft_store.go: applySet, applyDelete, Snapshot, Restore"]}
{"id": "C99", "title": "Signatures and addresses are those of the published standards, hash functions included", "statement": "SHA-256 and SHA-512 are computed as FIPS 180-4 says for every message it covers; every seed has exactly one Ed25519 public key; with these functions a cluster set up by the documented commands from a key file answers every rising sequence of requests with signatures that any verifier following RFC 8032 accepts for the key in the file, hands out nothing else whatever faulty cosigners do, and the address command prints the first 20 bytes of the SHA-256 of the key.", "quantifier": "every message, seed, plan of a cluster, dealing randomness, sequence of requests, and run with faulty cosigners", "why_tests_cant": "test vectors cover single inputs; that the combination of threshold signing, key files and the hash functions gives standard signatures for all inputs needs a proof", "anchors": ["signer/local_cosigner.go: sha256 in EncryptOAEP, SignPSS and VerifyPSS calls", "signer/cosigner_key_shares.go: CreateCosignerSharesFromFile, ExpandSecret", "signer/threshold_validator.go: SignBlock", "cmd/horcrux/cmd/cosigner.go: addressCmd"]}
{"id": "C100", "title": "A chain node that asks a follower gets the signature the leader makes", "statement": "When a follower hands a request on and the leader's call, with none of its waits running out, returns a signature, the follower returns this signature to its chain node; an error of the leader arrives as an error; and if the request is repeated through a follower, the answer is the same signature.", "quantifier": "every pair of timed runs of follower and leader, every delay of the messages, every request", "why_tests_cant": "depends on three timers in two processes (4 s for the call, twice 4 s for the leader's waits, 1 s of polling); tests run on one machine where answers take microseconds", "anchors": ["signer/raft_events.go: LeaderSignBlock", "signer/remote_cosigner.go: getContext", "signer/grpc_server.go: SignBlock", "signer/threshold_validator.go: SignBlock"]}
{"id": "C101", "title": "What `state show` prints is what the state files say", "statement": "If `horcrux state show` prints anything, its output is a report on what the two state files of the chain say: height, round and step in decimal, and one line each for the ephemeral key, the signature (base64) and the sign bytes (hexadecimal) if the file has them. The report can be read in one way only, so that it shows every difference between two states. It is printed exactly if there is a configuration, both files are readable and no existing directory is given with --home, and it is on the states that the next start continues from.", "quantifier": "every machine, every content of the state files, every flag", "why_tests_cant": "a test compares a few outputs; that no two states print the same text, with empty and missing members, is about all pairs of states", "anchors": ["cmd/horcrux/cmd/state.go: showStateCmd, printSignState", "signer/sign_state.go: LoadSignState"]}
