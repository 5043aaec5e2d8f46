{
 "claims": [
  {
   "property": "C01",
   "status": "proved",
   "theorems": [
    "C01_watermark_monotone",
    "C01_watermark_is_maximum",
    "C01_accepted_save",
    "C01_rejected_save"
   ],
   "note": ""
  },
  {
   "property": "C02",
   "status": "proved",
   "theorems": [
    "C02_save_accepts_iff_greater",
    "C02_same_hrs_iff_equal",
    "C02_regression_names_first_component"
   ],
   "note": ""
  },
  {
   "property": "C03",
   "status": "proved",
   "theorems": [
    "C03_check_hrs_table"
   ],
   "note": ""
  },
  {
   "property": "C04",
   "status": "proved",
   "theorems": [
    "C04_cache_window_loaded",
    "C04_cache_window_fresh",
    "C04_underflow_refuted"
   ],
   "note": "heights at least -2^63+3 (no underflow of height-3); the excluded corner is refuted"
  },
  {
   "property": "C05",
   "status": "proved",
   "theorems": [
    "C05_no_conflicting_shares"
   ],
   "note": ""
  },
  {
   "property": "C06",
   "status": "proved",
   "theorems": [
    "C06_levels_never_decrease"
   ],
   "note": ""
  },
  {
   "property": "C07",
   "status": "partial",
   "theorems": [
    "C07_retry_partial",
    "C07_retry_refuted"
   ],
   "note": "false when another timestamp of the same message was signed in between: the ephemeral key of the later share is returned with the signature of the earlier one; holds otherwise"
  },
  {
   "property": "C08",
   "status": "partial",
   "theorems": [
    "C08_same_key_same_bytes_partial",
    "C08_trailing_bytes_refuted",
    "C08_aliased_keys_refuted"
   ],
   "note": "false: trailing bytes are signed but not decoded, and metadata of different timestamps can be aliased; for canonical bytes the same key means the same bytes"
  },
  {
   "property": "C09",
   "status": "partial",
   "theorems": [
    "C09_key_extraction_refuted",
    "C09_key_extraction_run_refuted",
    "C09_replaced_part_refuted",
    "C09_share_hidden_partial"
   ],
   "note": "False: explicit two-request attack for every cosigner and fresh share; with canonical requests only, a peer that replaces its part between two signatures for one key learns the share. Proved where parts are stored only for dealt keys, none as the cosigner's own, and new shares for one key are for the same bytes and nonce: the view of up to threshold-2 colluding peers is consistent with every key share (perfect secrecy; computational hiding against threshold-1 is not expressible here)."
  },
  {
   "property": "C10",
   "status": "partial",
   "theorems": [
    "C10_accepted_part_partial",
    "C10_replay_refuted"
   ],
   "note": "false: the signed payload does not contain the block or the destination; the source and contents are authenticated"
  },
  {
   "property": "C100",
   "status": "partial",
   "theorems": [
    "C100_signed_refuted",
    "C100_answer_partial",
    "C100_repeat_partial"
   ],
   "note": "False as stated: a follower's call is given up after 4 s while the two waits of the leader may take nearly 8 s; C100_signed_refuted has the leader return a signature after 6 s (waits of 3 s each) and the follower an error after 4 s. The guarded theorems need the answer back within 4 s; for a repeated request also that the first call ends less than 990 ms after the second began to wait (C86) and that the repeated call reaches the wait. gRPC is reduced to: answer of the handler, or an error at the deadline."
  },
  {
   "property": "C101",
   "status": "proved",
   "theorems": [
    "C101_output",
    "C101_read",
    "C101_when",
    "C101_start"
   ],
   "note": "For arbitrary contents of the files (C94). C101_start has the hypothesis of C80 that home-dir in config.yaml is the directory of the command (at_home). That HexBytes prints itself in upper-case hexadecimal under Println is read from memory of tendermint, which is not in /repo."
  },
  {
   "property": "C11",
   "status": "proved",
   "theorems": [
    "C11_unauthenticated_part",
    "C11_unauthenticated_request"
   ],
   "note": ""
  },
  {
   "property": "C12",
   "status": "partial",
   "theorems": [
    "C12_parts_shape_partial",
    "C12_interleaving_refuted"
   ],
   "note": "holds when no signature interleaves; the mutex is released between parts, and then two different secrets can be dealt in one answer"
  },
  {
   "property": "C13",
   "status": "proved",
   "theorems": [
    "C13_dealing_stable"
   ],
   "note": ""
  },
  {
   "property": "C14",
   "status": "partial",
   "theorems": [
    "C14_prune_exact_partial",
    "C14_parts_below_level_refuted"
   ],
   "note": "pruning is exact; parts below the signed level are still served"
  },
  {
   "property": "C15",
   "status": "partial",
   "theorems": [
    "C15_metadata_unbounded_refuted",
    "C15_only_requested_partial",
    "C15_size_partial"
   ],
   "note": "False for every cosigner: error answers leave entries. Proved: every entry belongs to a key that was asked for and not yet below a newly signed share, so the number is at most the number of distinct keys asked for."
  },
  {
   "property": "C16",
   "status": "partial",
   "theorems": [
    "C16_independent_partial",
    "C16_aliasing_refuted"
   ],
   "note": "false through aliasing of the placeholder dealt at the zero time; holds if every stored part is for a dealt key"
  },
  {
   "property": "C17",
   "status": "proved",
   "theorems": [
    "C17_level_from_bytes",
    "C17_record_consistent"
   ],
   "note": ""
  },
  {
   "property": "C18",
   "status": "partial",
   "theorems": [
    "C18_unpack_proposal",
    "C18_unpack_vote_partial",
    "C18_unpack_vote_refuted",
    "C18_timestamp_refuted"
   ],
   "note": "true for proposals and for votes whose sign bytes do not also decode as a proposal; a vote whose chain ID reads as a protobuf submessage is unpacked as a proposal; timestamps outside the int64 nanosecond range collide"
  },
  {
   "property": "C19",
   "status": "proved",
   "theorems": [
    "C19_domain_separation"
   ],
   "note": ""
  },
  {
   "property": "C20",
   "status": "proved",
   "theorems": [
    "C20_decode_vote",
    "C20_decode_proposal",
    "C20_vote_sign_bytes_injective",
    "C20_proposal_sign_bytes_injective"
   ],
   "note": ""
  },
  {
   "property": "C21",
   "status": "proved",
   "theorems": [
    "C21_only_differ_exact",
    "C21_only_differ_votes",
    "C21_only_differ_proposals"
   ],
   "note": ""
  },
  {
   "property": "C22",
   "status": "partial",
   "theorems": [
    "C22_unpack_panics_refuted",
    "C22_cosigner_panics_refuted",
    "C22_unpack_panics_exactly_partial"
   ],
   "note": "false: a CanonicalVote with an unknown type panics; the panicking byte strings are characterised exactly"
  },
  {
   "property": "C23",
   "status": "proved",
   "theorems": [
    "C23_get_request",
    "C23_get_response",
    "C23_sign_request",
    "C23_sign_response",
    "C23_block_request",
    "C23_block_response"
   ],
   "note": "Proved through the protobuf bytes: what arrives is what was sent, for every ID in int32, step in int8 and time representable in int64 nanoseconds. Examples show what is lost outside these ranges."
  },
  {
   "property": "C24",
   "status": "proved",
   "theorems": [
    "C24_read_write",
    "C24_stream",
    "C24_reads_deterministic",
    "C24_long_refused",
    "C24_read_in_range"
   ],
   "note": "At the level of bytes, for all message kinds of the privval protocol."
  },
  {
   "property": "C25",
   "status": "proved",
   "theorems": [
    "C25_fresh_signature_verified",
    "C25_other_signatures_recorded"
   ],
   "note": "The released signature verifies for exactly the bytes of a request; any other signature handed out is a recorded one or the raft leader's answer."
  },
  {
   "property": "C26",
   "status": "partial",
   "theorems": [
    "C26_success_without_signature_refuted",
    "C26_proposal_signature_refuted",
    "C26_success_means_partial",
    "C26_signed_vote_partial"
   ],
   "note": "False: a late vote differing by timestamp gets success without signature, and a repeated proposal with other content gets the recorded signature. Proved that these are the only exceptions on the leader when the recorded signatures are valid."
  },
  {
   "property": "C27",
   "status": "partial",
   "theorems": [
    "C27_unsigned_record_refuted",
    "C27_second_start_partial",
    "C27_signed_records_partial"
   ],
   "note": "False when a record without signature exists (initial state). Proved in full when every record carries a signature."
  },
  {
   "property": "C28",
   "status": "proved",
   "theorems": [
    "C28_requests",
    "C28_all_gave_shares"
   ],
   "note": ""
  },
  {
   "property": "C29",
   "status": "proved",
   "theorems": [
    "C29_watermark"
   ],
   "note": ""
  },
  {
   "property": "C30",
   "status": "partial",
   "theorems": [
    "C30_retry_refuted",
    "C30_stuck",
    "C30_higher_level_partial"
   ],
   "note": "False: the initiated state is never rolled back, so a failed attempt blocks its height/round/step on that leader until a raft event records it. Proved for every configuration; higher levels are not affected."
  },
  {
   "property": "C31",
   "status": "partial",
   "theorems": [
    "C31_new_leader_refuted",
    "C31_recorded_proposal_partial"
   ],
   "note": "False on a leader that got the record from another leader and has not initiated the level. Proved once the level has been initiated."
  },
  {
   "property": "C32",
   "status": "partial",
   "theorems": [
    "C32_events_refuted",
    "C32_fresh_never_conflict",
    "C32_quorum_behind_every_signature",
    "C32_quorums_agree",
    "C32_votes_never_conflict_partial"
   ],
   "note": "False if raft events may carry arbitrary records. Proved for newly assembled signatures given our own cosigner runs the modelled code, and for all signatures on votes given a quorum of correct cosigners and honest records."
  },
  {
   "property": "C33",
   "status": "proved",
   "theorems": [
    "C33_followers"
   ],
   "note": ""
  },
  {
   "property": "C34",
   "status": "proved",
   "theorems": [
    "C34_no_equivocation",
    "C34_bound_is_tight"
   ],
   "note": "proved with up to f arbitrarily faulty cosigners for 2t > n+f, for cosigners without restart (restarts: C36); the bound is shown tight"
  },
  {
   "property": "C35",
   "status": "partial",
   "theorems": [
    "C35_threshold_refuted",
    "C35_threshold_zero_panics_refuted",
    "C35_accepted_iff_partial",
    "C35_threshold_at_most_shares_partial"
   ],
   "note": "False: any threshold up to the number of cosigners is accepted, also 1, 0 and negative ones. Proved: the exact set of accepted configurations; the threshold never exceeds the number of cosigners, which never exceeds the number of shares. C34 needs 2*threshold > n, which validation does not enforce."
  },
  {
   "property": "C36",
   "status": "partial",
   "theorems": [
    "C36_crash_refuted",
    "C36_file_not_behind_partial",
    "C36_saves_awaited_partial"
   ],
   "note": "False as stated: the share is returned before the asynchronous write. Proved if at each restart the file is not behind the lost memory, in particular if every write finishes before the next operation or crash."
  },
  {
   "property": "C37",
   "status": "partial",
   "theorems": [
    "C37_backwards_refuted",
    "C37_sequential_partial"
   ],
   "note": "False: concurrent save goroutines can rename out of order. Proved for schedules where a Save begins only when no write is outstanding."
  },
  {
   "property": "C38",
   "status": "partial",
   "theorems": [
    "C38_above_memory_refuted",
    "C38_below_start_refuted",
    "C38_untorn_partial",
    "C38_save_whole"
   ],
   "note": "False: save reads the fields without the lock, so a file can mix two states. Proved for schedules where no field is read in the middle of a Save; the object in memory always ends up as the Save of C01/C02 leaves it."
  },
  {
   "property": "C39",
   "status": "proved",
   "theorems": [
    "C39_load_after_save",
    "C39_load_or_create"
   ],
   "note": ""
  },
  {
   "property": "C40",
   "status": "proved",
   "theorems": [
    "C40_last_entry_decides",
    "C40_other_entries_inert",
    "C40_lss_not_stored",
    "C40_calls",
    "C40_names"
   ],
   "note": "For every byte string in the log, and at the level of Set/Delete calls with UTF-8 keys and values (encoding/json replaces other bytes)."
  },
  {
   "property": "C41",
   "status": "proved",
   "theorems": [
    "C41_watermark_is_maximum",
    "C41_any_order",
    "C41_replay_inert"
   ],
   "note": ""
  },
  {
   "property": "C42",
   "status": "partial",
   "theorems": [
    "C42_watermark_lost_refuted",
    "C42_snapshot_partial",
    "C42_not_behind_partial",
    "C42_maps_are_texts"
   ],
   "note": "False for the sign states: snapshots hold only the map. Proved for the map, through the JSON text of the snapshot, and for the sign states of a node that was not behind the events covered by the snapshot."
  },
  {
   "property": "C43",
   "status": "partial",
   "theorems": [
    "C43_not_replicated_refuted",
    "C43_emitted_partial",
    "C43_event_members",
    "C43_event_applied_partial",
    "C43_event_raises_partial"
   ],
   "note": "False: an Emit error is only logged. Proved: Emit is called before every return of a fresh signature, and a committed event makes every node save exactly that record."
  },
  {
   "property": "C44",
   "status": "proved",
   "theorems": [
    "C44_replicas_agree"
   ],
   "note": ""
  },
  {
   "property": "C45",
   "status": "proved",
   "theorems": [
    "C45_matching_response",
    "C45_failure",
    "C45_vote_response",
    "C45_proposal_response",
    "C45_vote_through_validator",
    "C45_proposal_through_validator"
   ],
   "note": ""
  },
  {
   "property": "C46",
   "status": "partial",
   "theorems": [
    "C46_nil_vote_refuted",
    "C46_bad_vote_refuted",
    "C46_panics_iff",
    "C46_any_input_partial",
    "C46_stream_partial"
   ],
   "note": "False: a SignVoteRequest without vote, with an unknown type or a hash of wrong length makes the process panic. Proved: exactly these requests do, and on any input everything before the first of them is answered one for one."
  },
  {
   "property": "C47",
   "status": "partial",
   "theorems": [
    "C47_exact_partial",
    "C47_negative_refuted"
   ],
   "note": "Exact for every non-negative number of shares; a negative number is accepted with an empty list."
  },
  {
   "property": "C48",
   "status": "partial",
   "theorems": [
    "C48_remove_refuted",
    "C48_cmds_partial",
    "C48_without_remove_partial",
    "C48_single_signer",
    "C48_failure_changes_nothing",
    "C48_effects"
   ],
   "note": "False: `peers remove` can leave fewer cosigners than the threshold. Proved: every sequence of commands keeps every other condition; sequences without `peers remove` keep all."
  },
  {
   "property": "C49",
   "status": "partial",
   "theorems": [
    "C49_first_ignored_refuted",
    "C49_url_refuted",
    "C49_last_checked_partial",
    "C49_named"
   ],
   "note": "False: only the last address decides. Whether an address is well formed (net/url) is a parameter in the first and third theorem and computed in the other two (url.Parse as modelled for C85)."
  },
  {
   "property": "C50",
   "status": "proved",
   "theorems": [
    "C50_parse_exact",
    "C50_round_trip",
    "C50_numbers"
   ],
   "note": ""
  },
  {
   "property": "C51",
   "status": "proved",
   "theorems": [
    "C51_crash_safe",
    "C51_complete"
   ],
   "note": "Crash points: before, between and after the two renames, and with the configuration file torn at any byte or lost."
  },
  {
   "property": "C52",
   "status": "partial",
   "theorems": [
    "C52_index_refuted",
    "C52_one_per_share_partial",
    "C52_leader_partial"
   ],
   "note": "False with more shares than configured cosigners. Proved when every ID is configured, over all runs of the cosigner and of the leader; there the leader can only panic with a threshold below 1 or inside the library that combines shares."
  },
  {
   "property": "C53",
   "status": "partial",
   "theorems": [
    "C53_key_set_partial",
    "C53_command_partial",
    "C53_count_refuted"
   ],
   "note": "The number of shares is truncated to 8 bits; proved for 0..255, with the exact result of the command for every integer."
  },
  {
   "property": "C54",
   "status": "proved",
   "theorems": [
    "C54_interpolation",
    "C54_reconstruct"
   ],
   "note": "Over any field; the library functions are hypotheses (threshold_scheme), with an instance."
  },
  {
   "property": "C55",
   "status": "proved",
   "theorems": [
    "C55_hiding",
    "C55_ids"
   ],
   "note": "Existence and uniqueness of the polynomial for every candidate secret, over any field."
  },
  {
   "property": "C56",
   "status": "proved",
   "theorems": [
    "C56_signatures_verify"
   ],
   "note": "Through the model of the cosigner (dealing, encryption, storing parts, signing), for any t participants."
  },
  {
   "property": "C57",
   "status": "partial",
   "theorems": [
    "C57_one_life_partial",
    "C57_restart_refuted",
    "C57_signatures",
    "C57_reload_partial",
    "C57_vote_answer",
    "C57_proposal_answer",
    "C57_vote_fresh",
    "C57_proposal_fresh",
    "C57_vote_again",
    "C57_proposal_again",
    "C57_vote_below",
    "C57_proposal_below",
    "C57_vote_first",
    "C57_proposal_first"
   ],
   "note": "Holds within one process life; false across a restart because signer.go:78 starts from an empty state. C57_reload shows that reading the state file would suffice."
  },
  {
   "property": "C58",
   "status": "partial",
   "theorems": [
    "C58_unknown_id_refuted",
    "C58_known_id_partial"
   ],
   "note": "False: an unknown ID transfers to any candidate. Proved for IDs of peers."
  },
  {
   "property": "C59",
   "status": "proved",
   "theorems": [
    "C59_join"
   ],
   "note": "Also: a failed Join leaves unrelated servers alone."
  },
  {
   "property": "C60",
   "status": "partial",
   "theorems": [
    "C60_never_lowers",
    "C60_lost_write_refuted",
    "C60_when_written_partial"
   ],
   "note": "Never lowers: proved. The second half is false because the command may exit before its writes."
  },
  {
   "property": "C61",
   "status": "partial",
   "theorems": [
    "C61_lone_peer_refuted",
    "C61_own_part_partial"
   ],
   "note": "False for every cosigner if a part arrives before the cosigner dealt. Proved if it handed out a part for the key first."
  },
  {
   "property": "C62",
   "status": "partial",
   "theorems": [
    "C62_empty_object_refuted",
    "C62_truncated_resets_refuted",
    "C62_truncated_refused_partial"
   ],
   "note": "False: {} and null load as the zero state, and the validator's state is replaced by the zero state when unreadable. Proved: LoadSignState (share state) refuses every truncation of a written file."
  },
  {
   "property": "C63",
   "status": "partial",
   "theorems": [
    "C63_overwrites_refuted",
    "C63_no_state_lost_partial"
   ],
   "note": "False when files for the new chain ID exist already: they are overwritten by the renamed ones, also if they hold a higher watermark. Where the new chain has no state files nothing is lost: both files keep their contents under the new names and every other file is untouched."
  },
  {
   "property": "C64",
   "status": "proved",
   "theorems": [
    "C64_one_id_left"
   ],
   "note": ""
  },
  {
   "property": "C65",
   "status": "partial",
   "theorems": [
    "C65_home_flag_refuted",
    "C65_default_home_partial"
   ],
   "note": "With --home the command always fails, because the paths are only set up in the default case."
  },
  {
   "property": "C66",
   "status": "partial",
   "theorems": [
    "C66_signs_partial",
    "C66_lone_refuted"
   ],
   "note": "Proved end to end for 2 <= n <= 255, one undisturbed call with any quorum and any order of answers, and requests that UnpackHRST reads back (see C18). A cluster of one cosigner is accepted but never signs."
  },
  {
   "property": "C67",
   "status": "partial",
   "theorems": [
    "C67_parameters_refuted",
    "C67_usable_partial"
   ],
   "note": "Threshold above the number of shares and thresholds of 256 and more are accepted."
  },
  {
   "property": "C68",
   "status": "partial",
   "theorems": [
    "C68_round_trip",
    "C68_any_order",
    "C68_legacy",
    "C68_loaded_partial",
    "C68_incomplete_refuted",
    "C68_null_refuted",
    "C68_panics_partial",
    "C68_generated",
    "C68_rsa_partial"
   ],
   "note": "Round trip, order and legacy files proved for any inverse RSA codecs, and with PKCS #1 itself for all keys that create-shares makes; a file without share and ID loads, and the file `null` panics."
  },
  {
   "property": "C69",
   "status": "partial",
   "theorems": [
    "C69_members_partial",
    "C69_no_members",
    "C69_agree",
    "C69_own_id_refuted",
    "C69_later_change_refuted"
   ],
   "note": "Membership and agreement proved for first starts with distinct IDs and addresses; false if our own ID is among the peers (bootstrap error dropped) and after later configuration changes."
  },
  {
   "property": "C70",
   "status": "partial",
   "theorems": [
    "C70_crash_iff",
    "C70_set_first_partial",
    "C70_applied",
    "C70_event_refuted",
    "C70_sign_refuted"
   ],
   "note": "Exact characterisation of the crashing interleavings; none if the validator is set first."
  },
  {
   "property": "C71",
   "status": "partial",
   "theorems": [
    "C71_noticed_partial",
    "C71_allowed_partial",
    "C71_never_on_linux",
    "C71_no_signer_refuted",
    "C71_renamed_refuted"
   ],
   "note": "On Linux pgrep reports the command itself, so it is always refused; renamed signers are not noticed."
  },
  {
   "property": "C72",
   "status": "partial",
   "theorems": [
    "C72_signatures",
    "C72_supported_partial",
    "C72_agree_partial",
    "C72_few_restarts_partial",
    "C72_votes_partial",
    "C72_no_restart_partial",
    "C72_crash_refuted"
   ],
   "note": "The first half (every signature handed out is for a message a threshold of cosigners signed) holds in every history, with any files. The second half holds if 2t > n + the number of cosigners that are faulty or lost state in a restart (in particular without restarts); it is false beyond that bound: in a 2-of-3 cluster one crash before the state file is written is enough, because the files are written by goroutines nobody waits for."
  },
  {
   "property": "C73",
   "status": "proved",
   "theorems": [
    "C73_signs",
    "C73_keeps_signing",
    "C73_catches_up"
   ],
   "note": "On the composed model of C72, from any reachable state; laws of the threshold scheme are hypotheses. A cluster of one cosigner never signs (C66_lone_refuted)."
  },
  {
   "property": "C74",
   "status": "partial",
   "theorems": [
    "C74_takes_over_partial",
    "C74_lost_vote_refuted"
   ],
   "note": "False: if the leader stops after one cosigner has signed, that cosigner repeats its old share (made with the old nonce sum) to every later leader, so no quorum containing it, and in the run shown no quorum at all, yields a valid signature. Proved where earlier attempts came no further than collecting parts from the cosigners that answer now."
  },
  {
   "property": "C75",
   "status": "partial",
   "theorems": [
    "C75_recorded_partial",
    "C75_new_leader_refuted",
    "C75_second_timestamp_refuted"
   ],
   "note": "False for a new leader: a replicated state does not raise lastSignStateInitiated, so it starts a new round, and the cosigner whose state holds the full signature returns that as its share. False for a second timestamp repeated with another quorum. Proved for a host that recorded the signature and has initiated its level."
  },
  {
   "property": "C76",
   "status": "proved",
   "theorems": [
    "C76_conversation",
    "C76_connection_serves",
    "C76_progress",
    "C76_not_stuck"
   ],
   "note": "Step machine of the loop; any sequence of failures. The bytes on a connection are those of serve (C45, C46). Any seven steps without failure contain an answer."
  },
  {
   "property": "C77",
   "status": "partial",
   "theorems": [
    "C77_signs_refuted",
    "C77_at_most_one_partial",
    "C77_never_ends_refuted",
    "C77_ends_partial",
    "C77_all_stopped"
   ],
   "note": "False: a request that is being waited for when Stop is called is still read and signed (one at most, on a connection already open); a signer that cannot connect retries for ever, because the dial loop does not look at IsRunning. Ends within four steps if no attempt to connect fails."
  },
  {
   "property": "C78",
   "status": "partial",
   "theorems": [
    "C78_left_open_refuted",
    "C78_exact_partial"
   ],
   "note": "False: a connection whose handshake fails is not closed by the signer (only by Go's finalizer, some time). Exact count of what is left open."
  },
  {
   "property": "C79",
   "status": "proved",
   "theorems": [
    "C79_commands",
    "C79_cluster",
    "C79_raft",
    "C79_signs",
    "C79_safe",
    "C79_restarts"
   ],
   "note": "From the key file to a signing cluster, on machines without a configuration. C79_raft needs addresses that differ as raft sees them; C79_signs needs the laws of the threshold scheme; C79_safe assumes no restarts (C72 says what restarts can do)."
  },
  {
   "property": "C80",
   "status": "partial",
   "theorems": [
    "C80_copied_refuted",
    "C80_state_set_partial",
    "C80_chain_partial",
    "C80_show_partial",
    "C80_commands",
    "C80_edit"
   ],
   "note": "False for a copied or moved home directory: start takes the state directory from home-dir in config.yaml, the commands from --home. Holds while home-dir names the directory of the file, which no command changes."
  },
  {
   "property": "C81",
   "status": "partial",
   "theorems": [
    "C81_no_config_refuted",
    "C81_exact_partial",
    "C81_harmless"
   ],
   "note": "False: without a readable config.yaml most commands and start dereference nil. Exact characterisation of the crashing commands; a crash changes nothing."
  },
  {
   "property": "C82",
   "status": "partial",
   "theorems": [
    "C82_lowered_refuted",
    "C82_commands_partial",
    "C82_start",
    "C82_chain_partial"
   ],
   "note": "False for chain-id set onto the state of another chain, and for config init -o where the share state is unreadable. Holds for readable states and every other command and start."
  },
  {
   "property": "C83",
   "status": "partial",
   "theorems": [
    "C83_prefix_refuted",
    "C83_line_partial",
    "C83_bip173",
    "C83_read",
    "C83_distinct",
    "C83_cluster"
   ],
   "note": "False for the empty prefix (JSON in place of bech32) and for prefixes with upper case letters or other bytes bech32 does not allow: the command succeeds and the text cannot be decoded. C83_line_partial says exactly which prefixes work; the texts are those of BIP 173, stated independently as division of polynomials over GF(32) (C83_bip173, C83_read); SHA-256 is any function with 32 byte values."
  },
  {
   "property": "C84",
   "status": "partial",
   "theorems": [
    "C84_crash_refuted",
    "C84_epoch_refuted",
    "C84_votes_partial",
    "C84_no_restart_partial",
    "C84_vote_verifies_partial",
    "C84_signatures",
    "C84_pub_key",
    "C84_set_up_partial",
    "C84_can_read"
   ],
   "note": "False after a crash of one host in a 2-of-3 cluster (C72), and without any fault for a precommit for nil at the Unix epoch on a chain whose ID parses as a Timestamp (C18). Holds if the cosigners that are faulty or lost state are few enough and no vote reads as a proposal; also for every cluster set up with the commands (C79)."
  },
  {
   "property": "C85",
   "status": "partial",
   "theorems": [
    "C85_peers_refuted",
    "C85_port_refuted",
    "C85_start_refuted",
    "C85_elect_refuted",
    "C85_node_refuted",
    "C85_listen_partial",
    "C85_url",
    "C85_elect_partial",
    "C85_node_partial",
    "C85_plan_ok",
    "C85_cluster_partial",
    "C85_addresses",
    "C85_bare"
   ],
   "note": "False for peers without scheme (no raft membership on any host), ports above 65535 (panic) or absent (random port), listen addresses edited by hand, IPv6 addresses in elect (brackets lost), nodes with a scheme that is no network. Holds for scheme://name:port with name, IPv4 or (except elect) IPv6 address; exactly which addresses elect dials right; what config init ensures of the listen address. url.Parse and net.SplitHostPort are modelled, not assumed; it also discharges the address premises of C69 and C79."
  },
  {
   "property": "C86",
   "status": "partial",
   "theorems": [
    "C86_repeat_refuted",
    "C86_repeat_partial"
   ],
   "note": "False as stated: the second call gives up after 100 looks (990 ms at the least), the first may take up to 8 s. Guarded: if the first call returns within 990 ms of the start of the second one's wait, every polling call for the same request returns the same signature (polls 10 ms apart, sleeps may be late; no request or event more than three heights above)."
  },
  {
   "property": "C87",
   "status": "partial",
   "theorems": [
    "C87_one_life_partial",
    "C87_restart_refuted",
    "C87_reload_partial",
    "C87_vote_answered",
    "C87_proposal_answered"
   ],
   "note": "False as stated: across a restart chain nodes read two votes for different blocks in one round (cause: C57, LoadFilePVEmptyState). Guarded: true within every life of the process, and across all lives if the state file were loaded. Progress proved for both."
  },
  {
   "property": "C88",
   "status": "partial",
   "theorems": [
    "C88_text",
    "C88_range",
    "C88_kept",
    "C88_accepted",
    "C88_refuted",
    "C88_wait_partial"
   ],
   "note": "False as stated: zero and negative durations are accepted, and raft.Apply takes them as no time-out, so a proposal that raft never takes (the host lost the lead after the check) is never given up. Proved: the grammar and values of time.ParseDuration without fractions in both directions, the int64 range with fractions, the check of config init, the wait for every positive duration. time.ParseDuration (with float64 from SpecFloat) and raft.Apply are modelled from memory. Fractions: values by examples only."
  },
  {
   "property": "C89",
   "status": "partial",
   "theorems": [
    "C89_once_refuted",
    "C89_later_partial",
    "C89_led",
    "C89_bounded_partial",
    "C89_settled_partial",
    "C89_wait"
   ],
   "note": "False as stated: raft changes State before it clears Leader, and in between a host hands the request on to itself, any number of times (each time with a new connection and a new deadline); with old knowledge a request goes through several hosts. Proved for every history: terms of the hops never go down, within a term the request stays with one host, it comes back to a host only if that host was elected since, at most one hop per elected leader (hops to itself aside), a host that still leads has not handed it on. State and Leader of hashicorp/raft are modelled from memory."
  },
  {
   "property": "C90",
   "status": "partial",
   "theorems": [
    "C90_shares",
    "C90_signature",
    "C90_one_digest",
    "C90_text",
    "C90_one_part",
    "C90_blinding",
    "C90_pair",
    "C90_scheme",
    "C90_composite_refuted"
   ],
   "note": "Proved for every key with two different prime factors, hence for every key that create-shares makes (RSA-OAEP and RSA-PSS of the Go standard library, any hash of 32 bytes). A signature accepted for two different parts exhibits two different inputs with the same hash: the JSON texts or the PSS inputs of their digests. Not for every key file that loads: Validate does not test for primes, and a file with a composite factor loads but does not decrypt."
  },
  {
   "property": "C91",
   "status": "proved",
   "theorems": [
    "C91_get_request",
    "C91_get_response",
    "C91_sign_request",
    "C91_sign_response",
    "C91_block_request",
    "C91_block_response"
   ],
   "note": "For field lists with minimal varints and the wire types varint, 64 bits, bytes and 32 bits; groups are not stated."
  },
  {
   "property": "C92",
   "status": "proved",
   "theorems": [
    "C92_key_proposal",
    "C92_key_vote",
    "C92_key_none",
    "C92_same_vote",
    "C92_same_proposal",
    "C92_vote_request",
    "C92_proposal_request",
    "C92_key_request",
    "C92_ping_request",
    "C92_group",
    "C92_group_decoded"
   ],
   "note": "For field lists with minimal varints and the wire types varint, 64 bits, bytes and 32 bits; groups (wire types 3 and 4) with numbers beyond 7 are shown to be skipped in sign bytes only, not in requests. Field lists that are neither readable nor refused in the sense stated (submessages that are no list of fields) are not covered."
  },
  {
   "property": "C93",
   "status": "partial",
   "theorems": [
    "C93_verify",
    "C93_verify_key",
    "C93_base",
    "C93_key",
    "C93_scheme",
    "C93_signs",
    "C93_only_valid",
    "C93_share_hidden_partial"
   ],
   "note": "Ed25519 is computed (curve, encodings, RFC 8032 verification, Shamir shares modulo the group order); its verification and keys are proved equal to an independent statement of RFC 8032; the laws that other theorems assume (threshold_scheme, hiding_laws, rsa_pair) are theorems for it. SHA-512 and SHA-256 are parameters (any function; of 32 bytes for RSA; C99 puts the real ones in), primes of RSA keys are a hypothesis. The code of threshold-ed25519 and of crypto/ed25519 is not in /repo: that they compute what the standards say for every input, in particular that ScalarMultiplyBase reduces nonces of 32 random bytes, is assumed. Partial because hiding is false for peers that break the protocol (see C09)."
  },
  {
   "property": "C94",
   "status": "proved",
   "theorems": [
    "C94_json",
    "C94_string",
    "C94_state"
   ],
   "note": "For arbitrary bytes. Line breaks inside base64 and arrays of numbers for byte slices, which Go accepts, are part of the statement. Not modelled: the nesting limit of 10000 of encoding/json; the file system below os.ReadFile."
  },
  {
   "property": "C95",
   "status": "proved",
   "theorems": [
    "C95_store",
    "C95_other",
    "C95_watermark",
    "C95_entry",
    "C95_event",
    "C95_snapshot",
    "C95_key_file"
   ],
   "note": "For arbitrary bytes. In C95_key_file the RSA codecs and the decoding of the public key bytes are functions of the model (C68, C90). Not modelled: the nesting limit of encoding/json, a null inside an array of numbers that repeats an earlier member (Go keeps the earlier byte), and a snapshot text null, which would install a nil map."
  },
  {
   "property": "C96",
   "status": "partial",
   "theorems": [
    "C96_no_panic",
    "C96_no_write",
    "C96_ends",
    "C96_returned",
    "C96_leak_refuted",
    "C96_left_partial"
   ],
   "note": "False as stated: a call to which fewer than threshold - 1 peers ever answer leaves the goroutine that waits for the first group for ever, since a peer's error returns without Done; C96_leak_refuted has N such calls leave N goroutines. C96_left_partial counts exactly what is left. That each remote call ends (4 s deadline of its context) is the assumption in 'settled'; goroutines inside gRPC and Raft are not modelled."
  },
  {
   "property": "C97",
   "status": "proved",
   "theorems": [
    "C97_no_deadlock",
    "C97_fsm",
    "C97_release",
    "C97_done"
   ],
   "note": "Remote calls and waits with a timer are steps that end by themselves (their deadlines), and so is raft's answer to an entry (committed or failed). Mutexes inside gRPC, raft and the standard library are not modelled. What the goroutines compute is in the other models; here only their locking."
  },
  {
   "property": "C98",
   "status": "partial",
   "theorems": [
    "C98_race_refuted",
    "C98_no_race_partial"
   ],
   "note": "False as stated: the goroutine that writes the state file reads the fields while the next Save writes them (newBeyondBlockError reads without lock too). C98_no_race_partial excludes every other race: none on any map, no two writers of fields. The map of parts of one call of SignBlock is in C96_no_write."
  },
  {
   "property": "C99",
   "status": "proved",
   "theorems": [
    "C99_sha256",
    "C99_sha512",
    "C99_key",
    "C99_signs",
    "C99_only_valid",
    "C99_address"
   ],
   "note": "The Crypto record std has no parameter left: Ed25519 (C93), RSA (C90), SHA-256 and SHA-512 are all computed. FIPS 180-4 is stated independently, on bits of words, with the constants as roots of the first primes; both directions are proved. C99_abc computes the test vectors for abc. Test 3 of RFC 8032, 7.1 is computed with Compute in ShaWitness (a test whose outcome is printed, not a theorem: coqchk has no virtual machine and takes 13 minutes over the proof). Primality of generated RSA keys is a hypothesis (made_keys). That the Go libraries, which are not in /repo, compute these standards is assumed."
  }
 ]
}