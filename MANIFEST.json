{
 "claims": [
  {
   "property": "C01",
   "status": "proved",
   "theorems": [
    "C01_sessions_on_files_answer_as_on_lists",
    "C01_logs_hold_exactly_what_was_appended",
    "C01_append_adds_one_entry_to_one_log"
   ],
   "note": "Refinement of files to in-memory logs for every session; hypotheses: serializer round trip, hashes nonempty, no SHA-256 collision among the blocks of the history."
  },
  {
   "property": "C02",
   "status": "proved",
   "theorems": [
    "C02_block_files_never_change"
   ],
   "note": "All calls except remove/destroy-all, any later session."
  },
  {
   "property": "C03",
   "status": "proved",
   "theorems": [
    "C03_crash_before_heads_changes_nothing",
    "C03_crash_of_any_call",
    "C03_needs_a_moving_clock_refuted"
   ],
   "note": "Also for every crash point of every API call outside the window in which the heads file is open. Needs a clock that never returns the same value twice; the _refuted theorem shows this is necessary."
  },
  {
   "property": "C04",
   "status": "partial",
   "theorems": [
    "C04_crash_leaves_old_or_new_partial",
    "C04_every_append_has_a_fatal_window",
    "C04_crash_leaves_old_or_new_refuted"
   ],
   "note": "False as stated: the heads file is truncated before it is rewritten, a crash in between makes every log unreadable (refuted, with a universal form). Proved outside that window."
  },
  {
   "property": "C05",
   "status": "partial",
   "theorems": [
    "C05_concurrent_updates_survive_refuted",
    "C05_readable_logs_contain_only_appended_entries_partial",
    "C05_interleavings_keep_log_conditions"
   ],
   "note": "Lost updates are possible (refuted by two concurrent process_incoming). Proved: in every interleaving readable logs contain only entries appended to them."
  },
  {
   "property": "C06",
   "status": "partial",
   "theorems": [
    "C06_any_forged_head_block_is_accepted",
    "C06_tampering_is_detected_refuted",
    "C06_undecodable_head_block_is_noticed_partial"
   ],
   "note": "False: block contents are not compared with their hash (refuted; universal form proved). Only undecodable contents are noticed."
  },
  {
   "property": "C07",
   "status": "proved",
   "theorems": [
    "C07_logs_are_kept_apart"
   ],
   "note": ""
  },
  {
   "property": "C08",
   "status": "proved",
   "theorems": [
    "C08_newest_key_wins",
    "C08_newest_key_of_a_new_peer",
    "C08_order_of_arrival_does_not_matter",
    "C08_key_changes_only_for_a_newer_one"
   ],
   "note": "For every session of process_incoming and other calls, from every reachable state; order-independence for distinct dates in the past; and the single-call form for every API call including the command line and the bot. An empty key counts as no key and dates before 1970 are ignored, as in the code."
  },
  {
   "property": "C09",
   "status": "proved",
   "theorems": [
    "C09_timestamp_never_goes_back"
   ],
   "note": ""
  },
  {
   "property": "C10",
   "status": "partial",
   "theorems": [
    "C10_last_seen_not_before_autocrypt_partial",
    "C10_one_call_partial",
    "C10_last_seen_is_the_newest_date_partial",
    "C10_last_seen_refuted",
    "C10_newest_date_since_the_key_partial"
   ],
   "note": "False: last_seen can go back (refuted). Proved: what it is after any session in any order (the newest date since the mail that brought the key in use, or of all mails if there was none), never below the Autocrypt timestamp, one call in detail, and the full statement when mails arrive in the order of their dates."
  },
  {
   "property": "C11",
   "status": "proved",
   "theorems": [
    "C11_gossip_never_overrides"
   ],
   "note": "For every API call that processes no mail of the peer and imports no key by hand."
  },
  {
   "property": "C12",
   "status": "partial",
   "theorems": [
    "C12_gossip_has_the_date_of_its_mail_partial",
    "C12_gossip_moves_forward_partial",
    "C12_older_gossip_refuted",
    "C12_gossip_of_a_session",
    "C12_gossip_never_goes_back_partial"
   ],
   "note": "False: older gossip replaces newer gossip (refuted). Proved: after any session the gossip in use is that of a mail of the session, with its date, id and key; it never goes back as long as mails arrive in the order of their dates."
  },
  {
   "property": "C13",
   "status": "partial",
   "theorems": [
    "C13_processing_again_changes_nothing_partial",
    "C13_processing_again_refuted",
    "C13_encrypted_mail_again_partial"
   ],
   "note": "False for keys gpg cannot import: recorded again each time (refuted). Proved for mails that are not decrypted and whose key gpg imports under a fixed handle, and for encrypted mails with gossip if gpg decrypts them to the same content each time, imports the keys under fixed handles and the gossip addresses are in normal form."
  },
  {
   "property": "C14",
   "status": "proved",
   "theorems": [
    "C14_mail_touches_only_its_peers"
   ],
   "note": "Recipients are those of the mail after decryption, which include To/Cc lines inside the encrypted part."
  },
  {
   "property": "C15",
   "status": "proved",
   "theorems": [
    "C15_unencrypted_mail_plants_no_gossip"
   ],
   "note": ""
  },
  {
   "property": "C16",
   "status": "proved",
   "theorems": [
    "C16_dates_are_in_the_past",
    "C16_dates_are_not_after_now",
    "C16_current_mail_is_never_blocked"
   ],
   "note": "The last theorem needs a strictly increasing clock."
  },
  {
   "property": "C17",
   "status": "proved",
   "theorems": [
    "C17_key_only_from_one_valid_header"
   ],
   "note": ""
  },
  {
   "property": "C18",
   "status": "partial",
   "theorems": [
    "C18_skipped_mail_was_seen_partial",
    "C18_skipped_mail_refuted"
   ],
   "note": "False for mails without Message-Id (refuted). Proved for mails with a Message-Id other than the empty string and \"None\"."
  },
  {
   "property": "C19",
   "status": "proved",
   "theorems": [
    "C19_mail_without_key_keeps_the_key"
   ],
   "note": "Gossip in the same mail that names the sender itself is left aside for a sender without direct key."
  },
  {
   "property": "C20",
   "status": "proved",
   "theorems": [
    "C20_one_recipient"
   ],
   "note": "The peer asked about is the one of the parsed address."
  },
  {
   "property": "C21",
   "status": "proved",
   "theorems": [
    "C21_most_cautious",
    "C21_more_recipients_more_caution",
    "C21_order_and_repetition_do_not_matter",
    "C21_disable_iff_a_key_is_missing",
    "C21_no_recipients",
    "C21_first_recipient_refuted"
   ],
   "note": "For at least one recipient; with none only the own preference counts, so the first recipient can lower caution (refuted form of the unrestricted statement)."
  },
  {
   "property": "C22",
   "status": "proved",
   "theorems": [
    "C22_always_an_answer"
   ],
   "note": ""
  },
  {
   "property": "C23",
   "status": "proved",
   "theorems": [
    "C23_automatic_only_if_everybody_wants_it"
   ],
   "note": ""
  },
  {
   "property": "C24",
   "status": "proved",
   "theorems": [
    "C24_round_trip",
    "C24_other_preferences_are_rejected",
    "C24_any_address_refuted"
   ],
   "note": "For every address whose parsed form has no ';' and is stable under parsing; the refuted theorem shows the ';' case."
  },
  {
   "property": "C25",
   "status": "partial",
   "theorems": [
    "C25_never_raises_refuted",
    "C25_never_raises_partial",
    "C25_only_nameless_attributes_raise_partial"
   ],
   "note": "False: an attribute without a name (\"=x\") raises IndexError (refuted). Proved: nothing else raises."
  },
  {
   "property": "C26",
   "status": "proved",
   "theorems": [
    "C26_meaning",
    "C26_critical_attributes_reject",
    "C26_underscore_attributes_do_not_matter",
    "C26_order_does_not_matter"
   ],
   "note": "Full meaning of every header value written as attributes, white space anywhere."
  },
  {
   "property": "C27",
   "status": "proved",
   "theorems": [
    "C27_folding"
   ],
   "note": ""
  },
  {
   "property": "C28",
   "status": "proved",
   "theorems": [
    "C28_lossless",
    "C28_keys_in_headers",
    "C28_different_keys_look_different"
   ],
   "note": ""
  },
  {
   "property": "C29",
   "status": "proved",
   "theorems": [
    "C29_never_sent_in_clear"
   ],
   "note": "Also for mail without ENCRYPT header when encryption is recommended."
  },
  {
   "property": "C30",
   "status": "proved",
   "theorems": [
    "C30_not_encrypted_unless_asked",
    "C30_does_return"
   ],
   "note": "The body is unchanged and no gpg process gets any input. A call that returns is assumed; a second theorem shows that it returns when no Autocrypt header has to be made."
  },
  {
   "property": "C31",
   "status": "proved",
   "theorems": [
    "C31_no_encrypt_header",
    "C31_no_encrypt_header_command_line",
    "C31_resent_command_line_refuted"
   ],
   "note": "On the command line for mail that is not resent; resent mail is passed through with the header (refuted form)."
  },
  {
   "property": "C32",
   "status": "proved",
   "theorems": [
    "C32_autocrypt_headers_kept",
    "C32_autocrypt_header_added"
   ],
   "note": "Reading the added header back has the conditions of C24 on the sender address."
  },
  {
   "property": "C33",
   "status": "proved",
   "theorems": [
    "C33_readable_by_all_recipients"
   ],
   "note": ""
  },
  {
   "property": "C34",
   "status": "proved",
   "theorems": [
    "C34_headers_outside_content_inside",
    "C34_outgoing_headers",
    "C34_decryption",
    "C34_there_and_back"
   ],
   "note": "MIME-Version of the original is dropped. The round trip assumes that gpg decrypts what it encrypted and that parsing inverts writing for mails with this body."
  },
  {
   "property": "C35",
   "status": "proved",
   "theorems": [
    "C35_gossip_tells_the_truth"
   ],
   "note": "Under the conditions of C24 on the address."
  },
  {
   "property": "C36",
   "status": "partial",
   "theorems": [
    "C36_gossip_from_inside_partial",
    "C36_gossip_from_cleartext_refuted"
   ],
   "note": "False: cleartext Autocrypt-Gossip headers of an encrypted mail are copied to the decrypted mail and believed (refuted). Proved for mail without such headers."
  },
  {
   "property": "C37",
   "status": "partial",
   "theorems": [
    "C37_gossip_reaches_recipients_partial",
    "C37_capital_letters_refuted"
   ],
   "note": "False: recipient addresses are compared with capitalization (refuted). Proved for recipients written in normal form: the key told is reported and recorded with id and date of the mail, unless the peer has a newer direct key."
  },
  {
   "property": "C38",
   "status": "partial",
   "theorems": [
    "C38_malformed_gossip_does_no_harm_partial",
    "C38_unimportable_gossip_refuted"
   ],
   "note": "False: a gossip key gpg cannot import raises TypeError (refuted). Proved when every header is malformed or has a key gpg imports."
  },
  {
   "property": "C39",
   "status": "proved",
   "theorems": [
    "C39_own_key_stays",
    "C39_add_again"
   ],
   "note": "For every session without deletion of the account. The key argument of mod_account is ignored by the code, see C42."
  },
  {
   "property": "C40",
   "status": "partial",
   "theorems": [
    "C40_deleted_and_nothing_else",
    "C40_created_again_partial",
    "C40_verifications_survive_refuted"
   ],
   "note": "False for out-of-band verifications: they survive and are taken over by a new account of the same name (refuted). Everything else is proved."
  },
  {
   "property": "C41",
   "status": "partial",
   "theorems": [
    "C41_others_usable",
    "C41_can_be_retried",
    "C41_refused_at_once",
    "C41_found_by_address_refuted"
   ],
   "note": "False for lookup by address: after a failed add_account it raises AccountNotFound (refuted). Proved: all other accounts are listed and behave as before, and the call can be repeated."
  },
  {
   "property": "C42",
   "status": "partial",
   "theorems": [
    "C42_mod_account",
    "C42_mod_command_partial",
    "C42_nothing_else_modifies",
    "C42_key_ignored_refuted",
    "C42_command_resets_program_refuted"
   ],
   "note": "False for the key argument, which is ignored, and for the command, which resets the gpg program (both refuted). Proved: all other settings, the answer, and that no other call changes settings."
  },
  {
   "property": "C43",
   "status": "proved",
   "theorems": [
    "C43_first_match",
    "C43_no_match",
    "C43_no_match_raises",
    "C43_route",
    "C43_route_delivered"
   ],
   "note": ""
  },
  {
   "property": "C44",
   "status": "proved",
   "theorems": [
    "C44_own_ring_only",
    "C44_rings_of_accounts",
    "C44_system_ring_unused"
   ],
   "note": "The gpg processes are those recorded in the trace of the model, with the home directory read off their command line."
  },
  {
   "property": "C45",
   "status": "proved",
   "theorems": [
    "C45_other_names_refused",
    "C45_home_is_child",
    "C45_homes_differ"
   ],
   "note": "The version of the directory may be written before the name is refused."
  },
  {
   "property": "C46",
   "status": "proved",
   "theorems": [
    "C46_nothing_left",
    "C46_like_empty_directory",
    "C46_not_confirmed"
   ],
   "note": "Answers of every later session equal those in an empty directory with the same clock and system key ring."
  },
  {
   "property": "C47",
   "status": "proved",
   "theorems": [
    "C47_unknown_account"
   ],
   "note": "The version of the directory may be written before."
  },
  {
   "property": "C48",
   "status": "proved",
   "theorems": [
    "C48_one_version",
    "C48_never_changes",
    "C48_set_on_first_use",
    "C48_present_with_accounts"
   ],
   "note": ""
  },
  {
   "property": "C49",
   "status": "proved",
   "theorems": [
    "C49_imported_for",
    "C49_for_nobody_else",
    "C49_minimised"
   ],
   "note": "With a strictly increasing clock. If gpg exports nothing for the key it has just imported, no key is recorded."
  },
  {
   "property": "C50",
   "status": "partial",
   "theorems": [
    "C50_reply_only_when_addressed_partial",
    "C50_part_of_address_refuted",
    "C50_reply_to_itself_refuted"
   ],
   "note": "False: the bot's address may occur as a part of another one, and the reply may go to the bot itself if its address is written with other capitalization or is the sender (refuted). Proved: who gets the reply, and that there is none unless the address occurs in To."
  },
  {
   "property": "C51",
   "status": "partial",
   "theorems": [
    "C51_encrypted_if_recommended",
    "C51_answers_partial",
    "C51_no_answer_refuted"
   ],
   "note": "Encrypted whenever recommended is proved in full. False that it always answers: somebody in copy without a known key makes it raise (refuted). Proved: it answers if header and encryption can be made."
  },
  {
   "property": "C52",
   "status": "partial",
   "theorems": [
    "C52_scan_file_by_file_partial",
    "C52_bad_mail_stops_scan_refuted"
   ],
   "note": "False: a mail that makes processing raise stops the scan (refuted). Proved: what is reported and done for each file up to the first such mail, and which mails stop a scan."
  },
  {
   "property": "C53",
   "status": "partial",
   "theorems": [
    "C53_reports_peer_state_partial",
    "C53_truth_about_new_mail_partial",
    "C53_old_mail_refuted",
    "C53_peerstate_partial",
    "C53_peerstate_refuted"
   ],
   "note": "False: an older mail without header is reported as found; last_ac_msg may name a later mail without header (both refuted). Proved for mail newer than all others of the sender, and when no mail without header came later."
  },
  {
   "property": "C54",
   "status": "proved",
   "theorems": [
    "C54_symmetric",
    "C54_match_by_suffix",
    "C54_match_ascii"
   ],
   "note": "Non-ASCII strings: one ends with a string of the same length whose lower case is that of the other."
  },
  {
   "property": "C55",
   "status": "proved",
   "theorems": [
    "C55_gpg_commands",
    "C55_commands_for_incoming_mail",
    "C55_encrypt_command"
   ],
   "note": "All commands are listed; for incoming mail the variable arguments are hexadecimal key ids only."
  },
  {
   "property": "C56",
   "status": "partial",
   "theorems": [
    "C56_same_zone_partial",
    "C56_other_zone_refuted"
   ],
   "note": "False: the time zone is ignored (refuted). Proved for dates with the same zone, if mktime is monotone."
  },
  {
   "property": "C57",
   "status": "partial",
   "theorems": [
    "C57_truncated_partial",
    "C57_too_long_refuted",
    "C57_short_refuted"
   ],
   "note": "False: longer than allowed when 100 or more characters are dropped, and wrong for lengths below 20 (both refuted). Proved otherwise, with the exact condition."
  },
  {
   "property": "C58",
   "status": "proved",
   "theorems": [
    "C58_sections_restore_indentation",
    "C58_exceptions_contained"
   ],
   "note": "For all scripts of lines, nested sections and exceptions."
  },
  {
   "property": "C59",
   "status": "partial",
   "theorems": [
    "C59_resent_mail_untouched_partial",
    "C59_empty_value_refuted"
   ],
   "note": "False for an empty Resent-From value, which counts as no header (refuted). Proved for all others."
  },
  {
   "property": "C60",
   "status": "partial",
   "theorems": [
    "C60_one_line_per_part_partial",
    "C60_folded_subject_refuted"
   ],
   "note": "False if a subject contains a line break (refuted). Proved if content types, charsets, file names and subjects of the parts have none."
  },
  {
   "property": "C61",
   "status": "proved",
   "theorems": [
    "C61_commands_make_their_calls",
    "C61_find",
    "C61_recommend",
    "C61_make_header",
    "C61_export",
    "C61_process_outgoing",
    "C61_process_incoming",
    "C61_import_public_key",
    "C61_peerstate",
    "C61_add_account",
    "C61_mod_account",
    "C61_del_account",
    "C61_destroy_all"
   ],
   "note": "One theorem for each command. The user ids shown are those gpg printed. How a mail is written as text and how times are shown are parameters of the model."
  },
  {
   "property": "C62",
   "status": "partial",
   "theorems": [
    "C62_sendmail_passes_on",
    "C62_sendmail_never_in_the_clear_partial",
    "C62_sendmail_needs_arguments",
    "C62_resent_in_the_clear_refuted"
   ],
   "note": "False for resent mail, which is handed over as it is whatever its ENCRYPT header says (refuted). Everything else is proved."
  },
  {
   "property": "C63",
   "status": "partial",
   "theorems": [
    "C63_status_of_account_partial",
    "C63_status_of_all_partial",
    "C63_status_of_gossip_refuted"
   ],
   "note": "False for the status of peers: one that never sent a mail, known by gossip, is shown as last-was-autocrypt (refuted). Proved: everything shown is what is stored; the status shown compares the two dates."
  },
  {
   "property": "C64",
   "status": "proved",
   "theorems": [
    "C64_key_of_the_ring_is_sent",
    "C64_key_is_sent",
    "C64_key_is_learned",
    "C64_exchange",
    "C64_reply_is_recommended",
    "C64_reply_uses_the_key"
   ],
   "note": "From process_outgoing over any delivery to process_incoming, recommendation and encryption of the reply. The address of the sender must survive being written to a header (see C24), and that gpg imports the key is a hypothesis."
  },
  {
   "property": "C65",
   "status": "proved",
   "theorems": [
    "C65_commands_of_each_call",
    "C65_one_kind",
    "C65_secret_keys",
    "C65_deletion",
    "C65_generation"
   ],
   "note": "Arguments of --encrypt are not restricted here, see C55."
  },
  {
   "property": "C66",
   "status": "proved",
   "theorems": [
    "C66_target_keyhandles",
    "C66_agrees_with_encryption"
   ],
   "note": ""
  },
  {
   "property": "C67",
   "status": "proved",
   "theorems": [
    "C67_same_answers",
    "C67_same_answers_private",
    "C67_same_sessions",
    "C67_calls_on_others"
   ],
   "note": "del-account on the command line is left out: it shows all other accounts. Accounts that share the system's key ring may of course see each other's keys there."
  },
  {
   "property": "C68",
   "status": "partial",
   "theorems": [
    "C68_processed_once_partial",
    "C68_encrypted_mail_is_final",
    "C68_encrypt_no_refuted"
   ],
   "note": "False for a mail that said ENCRYPT: no: its header is gone after the first pass, and the second pass encrypts it (refuted). Proved in all other cases."
  },
  {
   "property": "C69",
   "status": "partial",
   "theorems": [
    "C69_decryption_reports_keys",
    "C69_decryption_returns_partial",
    "C69_no_user_id_refuted",
    "C69_other_line_refuted",
    "C69_newer_gpg_refuted",
    "C69_wrong_user_id_refuted"
   ],
   "note": "False as stated: the call fails if a user id does not follow the line about the key (refuted twice), it takes the user id of another key (refuted), and it finds no keys in the text of gpg from 2.3 on (refuted). Proved for reports in the form of gpg before 2.3 with arbitrary other lines between."
  },
  {
   "property": "C70",
   "status": "partial",
   "theorems": [
    "C70_program_of_the_account",
    "C70_program_was_given",
    "C70_relative_file_refuted"
   ],
   "note": "False for a file name with a directory that does not begin with a slash: it is looked up in PATH, against the help text (refuted). Everything else is proved. For del-account on the command line, which may look at all accounts, only the second theorem speaks."
  },
  {
   "property": "C71",
   "status": "partial",
   "theorems": [
    "C71_options_of_the_version",
    "C71_other_versions_refuted"
   ],
   "note": "False that every version is accepted: with 2.1-beta3 no account can be made (refuted). Proved for versions made of numbers."
  },
  {
   "property": "C72",
   "status": "partial",
   "theorems": [
    "C72_given_key",
    "C72_exact_user_id_refuted"
   ],
   "note": "False that the user id is the handle: it may contain it anywhere (refuted), so another address that ends in the same way is taken. Proved with that reading."
  },
  {
   "property": "C73",
   "status": "proved",
   "theorems": [
    "C73_generated_key",
    "C73_peer_key"
   ],
   "note": "For peers: some run of the program of the account on the recorded key reported the handle; that it was a process that really ran is C97. For a key imported by hand the recorded key is the one exported afterwards."
  },
  {
   "property": "C74",
   "status": "partial",
   "theorems": [
    "C74_not_overlooked",
    "C74_rings",
    "C74_import_refuted"
   ],
   "note": "False for keys in mails that come in: an import that fails is logged at most, and the mail is processed as if it had no key (refuted). Proved for all other processes, also those of the calls that process mail; scan-dir is excused, it reports what fails."
  },
  {
   "property": "C75",
   "status": "partial",
   "theorems": [
    "C75_header_names",
    "C75_peer",
    "C75_recommend",
    "C75_import",
    "C75_encrypt",
    "C75_verification_refuted"
   ],
   "note": "False for verifications made out of band, which are looked up with the address as written (refuted). Everything else is proved. Mail that goes out is left out, since the names of its header fields are part of what is sent."
  },
  {
   "property": "C76",
   "status": "proved",
   "theorems": [
    "C76_none",
    "C76_incoming",
    "C76_encrypt",
    "C76_never_sent_in_clear",
    "C76_not_encrypted_unless_asked",
    "C76_commands_of_each_call",
    "C76_objection"
   ],
   "note": "Plugins are functions of the arguments of the hooks; what they do to the state directory or to key rings themselves is not looked at."
  },
  {
   "property": "C77",
   "status": "partial",
   "theorems": [
    "C77_readers",
    "C77_accessors",
    "C77_newest",
    "C77_missing",
    "C77_unreadable",
    "C77_replaced",
    "C77_files",
    "C77_shortrepr",
    "C77_restart",
    "C77_loss_is_noticed_refuted"
   ],
   "note": "False that a missing block file is noticed: the log silently ends there (refuted), and if it is the newest one the next entry begins the log anew. Everything else is proved."
  },
  {
   "property": "C78",
   "status": "partial",
   "theorems": [
    "C78_lines",
    "C78_white_space",
    "C78_packets",
    "C78_packets_unique",
    "C78_list_packets",
    "C78_list_packets_returns",
    "C78_public_key_packets",
    "C78_secret_key_packets",
    "C78_sign",
    "C78_sign_returns",
    "C78_verify",
    "C78_killagent",
    "C78_agent_conf",
    "C78_eddsa",
    "C78_failure",
    "C78_one_line_each_refuted"
   ],
   "note": "False that each packet is one line that gpg wrote: other characters end a line for Python, so that a user id can pretend to be a packet (refuted). Everything else is proved."
  },
  {
   "property": "C79",
   "status": "proved",
   "theorems": [
    "C79_white_space",
    "C79_small_letters",
    "C79_letters_and_digits",
    "C79_utf8",
    "C79_pieces",
    "C79_words",
    "C79_begins_with",
    "C79_within",
    "C79_order",
    "C79_fields",
    "C79_content_type",
    "C79_encrypted",
    "C79_address",
    "C79_from",
    "C79_date",
    "C79_id",
    "C79_to",
    "C79_opened",
    "C79_opens",
    "C79_not_in_the_clear"
   ],
   "note": "str.lower and str.isalnum are characterised for ASCII, outside it they are oracles; addresses and dates are those that the library functions of the standard library find in the header value (parameters of the model)."
  },
  {
   "property": "C80",
   "status": "proved",
   "theorems": [
    "C80_which_key_counts"
   ],
   "note": ""
  },
  {
   "property": "C81",
   "status": "partial",
   "theorems": [
    "C81_accounts_listed",
    "C81_listed_if_created",
    "C81_appears",
    "C81_stays",
    "C81_deleted",
    "C81_peers_listed",
    "C81_number_of_peers_refuted",
    "C81_verified"
   ],
   "note": "False for the number of peers: States.get_num_peers calls get_peername_list without its argument and always raises TypeError (refuted). Everything else proved. An account whose creation failed half-way is listed without being usable (see C41)."
  },
  {
   "property": "C82",
   "status": "partial",
   "theorems": [
    "C82_report_partial",
    "C82_last_line",
    "C82_recipients",
    "C82_fake_line_refuted"
   ],
   "note": "False for the lines about headers: only LF in a header is escaped, any other line end (VT, FF, CR, U+2028 and so on) begins a new line of the report, which can imitate a line about something else (refuted). Everything else proved, for the complete text of the report and for printing and sending the reply."
  },
  {
   "property": "C83",
   "status": "partial",
   "theorems": [
    "C83_any_time",
    "C83_done_partial",
    "C83_can",
    "C83_no_home",
    "C83_not_found",
    "C83_states",
    "C83_temp_partial",
    "C83_key_file",
    "C83_key_file_any_time",
    "C83_private_refuted",
    "C83_conf_refuted",
    "C83_basedir_refuted",
    "C83_temp_left_refuted"
   ],
   "note": "False if the process is killed: a home directory whose permissions have not been set yet keeps the usual ones for good, an incomplete gpg-agent.conf is never completed (both refuted). False that a temporary file is always removed: on a full disk it stays (refuted). False what a comment in the source says, that a missing base directory is an error (refuted). Everything else proved, in a model of a disk with permissions, free space and death at any operation or in the middle of a write."
  },
  {
   "property": "C84",
   "status": "partial",
   "theorems": [
    "C84_line",
    "C84_can",
    "C84_destroy",
    "C84_nothing",
    "C84_help",
    "C84_unknown_partial",
    "C84_unknown_mark",
    "C84_directory",
    "C84_command",
    "C84_scandir",
    "C84_bot",
    "C84_sendmail_partial",
    "C84_sendmail_refuted",
    "C84_separator_refuted",
    "C84_unknown_refuted"
   ],
   "note": "False for sendmail: a sender given as -fhans@a.org contains the letter h, which click takes for -h: help is printed, the mail is dropped and the exit code is 0 (refuted). False that the separator of two dashes reaches sendmail, so a recipient that starts with a dash becomes an option (refuted). False that a name that is no command is always an error: after one that begins with another character than a letter or a digit, as _status, help is printed and the exit code is 0 (refuted). Everything else proved: which words run which command with which arguments, in both directions; that other words do nothing; and how the process ends."
  },
  {
   "property": "C85",
   "status": "partial",
   "theorems": [
    "C85_every_read_is_of_one_moment",
    "C85_one_log_at_one_moment",
    "C85_reader_leaves_no_trace",
    "C85_recommendation_only_reads",
    "C85_whole_answer_of_one_moment_refuted",
    "C85_while_the_store_is_deleted_refuted"
   ],
   "note": "False for an answer that comes from several logs: a recommendation for two recipients can be 'encrypt' although there was no moment at which it was (refuted). False while another process deletes the whole store: a reader can get the newest entries of a log without the older ones (refuted). Proved for all other calls in the other processes: each read of a log is of one moment, what is said about one log was true at some moment, and a reader leaves no trace. Needed: a clock that never shows the same time twice, as for C03."
  },
  {
   "property": "C86",
   "status": "partial",
   "theorems": [
    "C86_kept_objects",
    "C86_while_nobody_modifies_or_deletes",
    "C86_other_program_refuted",
    "C86_deleted_account_refuted"
   ],
   "note": "False as soon as the account was given another gpg program: an object that has used gpg goes on with the old one (refuted). False after the account was deleted: a kept object still stores what it learns, and the next account of that name inherits it (refuted). Proved under the condition that at each method call the account exists with the gpg settings it had when the object was made, and in particular while nobody modifies or deletes an account."
  },
  {
   "property": "C87",
   "status": "partial",
   "theorems": [
    "C87_alone",
    "C87_while_these_logs_stay",
    "C87_each_read_of_one_moment",
    "C87_reasons_in_turn",
    "C87_answer_of_one_moment_refuted",
    "C87_handle_and_key_refuted"
   ],
   "note": "False while another process writes to the very log: a recommendation can be encrypt although it was so at no moment (refuted), and the handle given to gpg and the key told to the other recipients can be those of two keys (refuted). Proved: nobody else working, every call does the same as if it read each log once per decision; while others work, the recommendation is right if the logs asked for do not change, and otherwise each of its reasons was true in its turn."
  },
  {
   "property": "C88",
   "status": "partial",
   "theorems": [
    "C88_sender_reads_unless_a_key_is_recorded_partial",
    "C88_sender_reads_through_a_session_partial",
    "C88_claimed_address_refuted"
   ],
   "note": "False: a mail that claims to come from the own address and carries a key makes the account encrypt to that key in place of its own (refuted). Proved: the own key is used as long as no key is recorded for the address of the sender, and a session of mails leaves it so unless one offers or gossips a key for that address."
  },
  {
   "property": "C89",
   "status": "partial",
   "theorems": [
    "C89_named_recipients_can_read_partial",
    "C89_recipients_of_the_header_can_read_partial",
    "C89_recipient_given_as_argument_refuted",
    "C89_blind_copy_refuted"
   ],
   "note": "False for a recipient given as an argument and for a blind copy with -t (refuted twice), even if a key is recorded for them. Proved for those who are also named in To or Cc or are the sender, and for calls with options only and without a Bcc header. An option with a separate value is read as an option and a recipient."
  },
  {
   "property": "C90",
   "status": "partial",
   "theorems": [
    "C90_only_refused_keys_hide_a_key_partial",
    "C90_good_keys_partial",
    "C90_junk_key_refuted"
   ],
   "note": "False: a mail whose Autocrypt header holds no usable key is recorded all the same, hides the key that worked, and a mail that was encrypted before then goes out in clear (refuted). Proved: the only way to lose the key is a mail in the name of the peer with a key that gpg refuses, and the result of processing that mail says so."
  },
  {
   "property": "C91",
   "status": "proved",
   "theorems": [
    "C91_first_mail",
    "C91_stays_acquainted",
    "C91_letters_are_encrypted",
    "C91_mail_without_key_refuted"
   ],
   "note": "By an invariant over all runs of the two machines. The key that is sent is assumed to be one that gpg gives out and that the gpg of the other can import; the first mail that is processed must have a date not before 1970. If the other also writes with a program that sends no key, it is false: the next mail goes out in clear (refuted)."
  },
  {
   "property": "C92",
   "status": "partial",
   "theorems": [
    "C92_listed_in_order_partial",
    "C92_with_plugins_partial",
    "C92_last_added_runs",
    "C92_replaced_command_refuted"
   ],
   "note": "False: when a plugin adds a command with the name of an existing one, the command is run, but listing the commands fails with an AssertionError (refuted). Proved: the list is right if and only if all names are different; the last command added under a name is run."
  },
  {
   "property": "C93",
   "status": "partial",
   "theorems": [
    "C93_as_a_new_one_partial",
    "C93_kept_recommendation",
    "C93_handles_are_current",
    "C93_changed_preference_refuted"
   ],
   "note": "False: the object keeps the own preference of the moment it was made, so after a change of prefer_encrypt its answer differs from that of a new one (refuted). Proved: the answer is that of a new object if the preference is the same; in general it follows from what is known of the peers now and the preference of then; the key handles are always the current ones."
  },
  {
   "property": "C94",
   "status": "partial",
   "theorems": [
    "C94_read_back",
    "C94_arrives_partial",
    "C94_text_exactly",
    "C94_only_ascii",
    "C94_from_line_refuted",
    "C94_umlaut_refuted"
   ],
   "note": "False for all mails: a line that begins with 'From ' arrives with a '>' before it, because BytesGenerator is called without mangle_from_=False (refuted), and a mail whose text has a character that is not ASCII, as in mails that parse_message_from_string made of a str, cannot be encrypted at all (refuted). Proved against a model of Python's generator and parser: ordinary mails, with any nesting of parts, arrive with their parts and fields; a text arrives unchanged exactly if it has no CR and no such line; only ASCII and escaped bytes are ever encrypted."
  },
  {
   "property": "C95",
   "status": "partial",
   "theorems": [
    "C95_encrypted_partial",
    "C95_outgoing_partial",
    "C95_letter_partial",
    "C95_clear_partial",
    "C95_sendmail",
    "C95_line_ends_refuted"
   ],
   "note": "False for all mails: a text whose lines end with CR LF arrives with LF, and process-outgoing adds a line end (refuted). Proved against a model of Python's generator and parser, for header fields of visible ASCII characters: an encrypted mail is always written, and what is read from it means the same as the mail in every state; together with C94, the text of the sender is the text of the recipient; a mail in the clear is read as it was if it is ASCII. The form of Python's boundaries and of the content type with a boundary is assumed (python_wire)."
  },
  {
   "property": "C96",
   "status": "proved",
   "theorems": [
    "C96_header",
    "C96_public_key",
    "C96_secret_key",
    "C96_encrypt",
    "C96_decrypt",
    "C96_outgoing"
   ],
   "note": ""
  },
  {
   "property": "C97",
   "status": "proved",
   "theorems": [
    "C97_peer_key"
   ],
   "note": "Key handles of peers; those of accounts are C72 and C73. That the process ran in that state with these rings is part of the statement."
  },
  {
   "property": "C98",
   "status": "partial",
   "theorems": [
    "C98_records_kept",
    "C98_own_key_stays",
    "C98_timestamp_between",
    "C98_other_accounts",
    "C98_account_whole_or_absent",
    "C98_mail_recorded_or_not",
    "C98_repeat_partial",
    "C98_repeat_encrypted_refuted",
    "C98_repeat_encrypted_partial",
    "C98_repeat_many_partial",
    "C98_settings_all_or_nothing",
    "C98_settings_again",
    "C98_list_of_accounts_refuted"
   ],
   "note": "Records, own keys, timestamps, other accounts, new accounts, settings, deletions and mails that are not decrypted: proved. That a killed call can be repeated: proved for mails that are not decrypted whose key gpg imports, with the clock not moving across the date of the mail, and for encrypted mails that are not skipped as known, if gpg decrypts and imports the same way each time and the addresses of the gossip are in normal form; false for encrypted mails when known mails are skipped (witness), because the sender is recorded before the keys in the encrypted part. False for finding accounts by address after a killed creation (witness)."
  }
 ]
}