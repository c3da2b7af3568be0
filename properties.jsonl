{"id": "C01", "title": "Stored state behaves like per-name append-only logs", "statement": "For every sequence of API calls on a state directory, every call returns what it would return if each named log (own settings of an account, one per peer of an account, out-of-band verifications, manager settings) were a plain in-memory list to which entries are only ever appended: reading a log yields exactly the appended entries, newest first, none lost, duplicated or reordered, and appending to one log changes no other log. The on-disk representation (content-addressed block files plus one heads file) is unobservable.", "quantifier": "all finite histories of API calls, all messages, all clock readings, all gpg behaviours; provided no two different blocks written in that history have the same SHA-256", "why_tests_cant": "Tests append a handful of entries; the claim is about arbitrary histories, shared blocks, and block-link traversal of any length.", "anchors": ["muacrypt/chainstore.py:BlockService.store_block", "muacrypt/chainstore.py:BlockService.get_block", "muacrypt/chainstore.py:HeadTracker", "muacrypt/chainstore.py:ChainStates.new_head_block", "muacrypt/chainstore.py:Chain.iter_entries", "muacrypt/chainstore.py:Chain.append_entry", "muacrypt/states.py:States"]}
{"id": "C02", "title": "Recorded history is immutable", "statement": "Once an entry has been recorded in the state directory, no API call except destroy-all/remove changes or deletes the recorded bytes: account deletion and every other call leaves each stored block file byte-for-byte as it was.", "quantifier": "all histories, all API calls, all blocks present at any point of the history (no SHA-256 collision in the history)", "why_tests_cant": "A test can compare a few files after a few calls, not all files over all histories.", "anchors": ["muacrypt/chainstore.py:BlockService.store_block", "muacrypt/chainstore.py:HeadTracker.remove_if", "muacrypt/account.py:AccountManager.remove"]}
{"id": "C03", "title": "A crash before the heads file is reopened loses nothing", "statement": "If the process dies at any moment of a state-changing append before the heads file has been opened for writing (including in the middle of writing the new block file), then after restart every log reads exactly as before the append.", "quantifier": "all well-formed store states, all entries, all crash points up to the opening of the heads file, all torn prefixes of the block file", "why_tests_cant": "Crash points inside a system call sequence cannot be enumerated by unit tests.", "anchors": ["muacrypt/chainstore.py:ChainStates.new_head_block", "muacrypt/chainstore.py:BlockService.store_block", "muacrypt/chainstore.py:HeadTracker.upsert"]}
{"id": "C04", "title": "A crash at any point of an append leaves the old or the new state", "statement": "If the process dies at any moment while an entry is being appended, then after restart every log reads either as before or as after the append.", "quantifier": "all store states, all entries, all crash points including in the middle of rewriting the heads file", "why_tests_cant": "Crash points and torn writes are not reachable from unit tests.", "anchors": ["muacrypt/chainstore.py:HeadTracker.upsert", "muacrypt/chainstore.py:HeadTracker.remove_if", "muacrypt/chainstore.py:HeadTracker._getheads"]}
{"id": "C05", "title": "Concurrent processes do not lose each other's updates", "statement": "If two processes concurrently append entries to the state directory, then after both finish both entries are present, whatever the interleaving of their file operations; and at every moment every log that can be read is a chain of entries somebody appended.", "quantifier": "all interleavings of the file operations of two (or more) appending processes", "why_tests_cant": "Schedules are not controllable in unit tests.", "anchors": ["muacrypt/chainstore.py:HeadTracker.upsert", "muacrypt/chainstore.py:ChainStates.new_head_block"]}
{"id": "C06", "title": "Tampering with a recorded entry is detected", "statement": "Entries are linked by cryptographic hashes; reading a log whose stored block file was altered is never silently accepted as if it were the recorded entry.", "quantifier": "all stores, all altered block contents", "why_tests_cant": "Would need every possible alteration.", "anchors": ["muacrypt/chainstore.py:BlockService.get_block", "muacrypt/states.py:module docstring"]}
{"id": "C07", "title": "Accounts and peers never share a log", "statement": "The state of (account, peer address) pairs is kept apart: for any two different (account, address) pairs with valid account names the peer states are different logs, and no peer log is an own-settings log, an out-of-band log or the manager log.", "quantifier": "all valid (alphanumeric) account names and all address strings, including ones containing ':' ", "why_tests_cant": "String-encoding ambiguity only shows on adversarial names.", "anchors": ["muacrypt/states.py:States.get_peerstate", "muacrypt/states.py:States.get_ownstate", "muacrypt/states.py:States.get_oobstate", "muacrypt/account.py:Account.__init__"]}
{"id": "C08", "title": "The key in use is the one from the most recently dated Autocrypt message, whatever the arrival order", "statement": "After any sequence of mails processed by an account, the direct key, its prefer-encrypt setting and the Autocrypt timestamp reported for a peer are those of a processed mail from that peer that carried a key and has the maximal effective date among all of them; if the mails with maximal date agree, the reported key is exactly theirs. If no mail with a key was processed, there is no direct key and the timestamp is 0.", "quantifier": "all finite histories of API calls in any order and any dates, all peers", "why_tests_cant": "Unit tests try two or three arrival orders; the claim is about all permutations and all histories.", "anchors": ["muacrypt/states.py:PeerState.update_from_msg", "muacrypt/states.py:PeerState._latest_ac_entry", "muacrypt/states.py:PeerState.autocrypt_timestamp", "muacrypt/account.py:Account.process_autocrypt_header"]}
{"id": "C09", "title": "The Autocrypt timestamp of a peer never goes backwards", "statement": "No API call other than deleting the account or all state ever decreases the autocrypt_timestamp reported for a peer, even if the call raises.", "quantifier": "all reachable states, all API calls, all messages, all clocks", "why_tests_cant": "Monotonicity over all histories.", "anchors": ["muacrypt/states.py:PeerState.update_from_msg", "muacrypt/states.py:PeerState.autocrypt_timestamp"]}
{"id": "C10", "title": "last_seen is the date of the most recent mail seen", "statement": "After any sequence of mails from a peer, last_seen is the maximum of their effective dates; in particular it never decreases and is never smaller than the Autocrypt timestamp.", "quantifier": "all histories of processed mails of a peer", "why_tests_cant": "Order-dependence only shows on particular arrival orders.", "anchors": ["muacrypt/states.py:PeerState.last_seen", "muacrypt/states.py:PeerState.update_from_msg", "muacrypt/states.py:PeerState._latest_msg_entry"]}
{"id": "C11", "title": "Gossip never overrides a direct key", "statement": "Processing gossip for a peer whose direct key is usable changes neither the key used for encryption nor its prefer-encrypt setting, direct-key flag, Autocrypt timestamp or last_seen.", "quantifier": "all reachable states, all gossip updates", "why_tests_cant": "All interleavings of direct and gossip updates.", "anchors": ["muacrypt/states.py:PeerState.update_from_msg_gossip", "muacrypt/states.py:PeerState.entry_for_encryption"]}
{"id": "C12", "title": "Older gossip does not replace newer gossip", "statement": "For a peer known only from gossip, the key used for encryption is that of the most recently dated gossip message, whatever the arrival order.", "quantifier": "all histories of gossip updates of a peer", "why_tests_cant": "Order-dependence.", "anchors": ["muacrypt/states.py:PeerState.update_from_msg_gossip", "muacrypt/states.py:PeerState.latest_gossip_entry"]}
{"id": "C13", "title": "Processing the same mail again changes nothing", "statement": "Re-processing a mail that has just been processed, under an unchanged effective date, leaves all recorded state unchanged (no duplicate entries).", "quantifier": "all reachable states, all messages", "why_tests_cant": "All states and messages, including failed key imports.", "anchors": ["muacrypt/states.py:PeerState.update_from_msg", "muacrypt/states.py:PeerState.update_from_msg_gossip", "muacrypt/account.py:Account.process_incoming"]}
{"id": "C14", "title": "Processing a mail touches only the peers it concerns", "statement": "process_incoming on an account changes at most the peer state of the From address and of To/Cc recipients of an encrypted mail, in that account only: other peers, other accounts, all own settings, all out-of-band verifications are unchanged, whether the call succeeds or raises.", "quantifier": "all states, messages, gpg behaviours", "why_tests_cant": "Frame conditions quantify over everything else.", "anchors": ["muacrypt/account.py:Account.process_incoming", "muacrypt/account.py:Account.process_gossip_headers"]}
{"id": "C15", "title": "Unencrypted mail cannot plant gossip keys", "statement": "Processing a mail that is not an encrypted mail (or with decryption disabled) changes no peer but the sender, and adds no gossip key for anybody.", "quantifier": "all states, all messages", "why_tests_cant": "All messages.", "anchors": ["muacrypt/account.py:Account.process_incoming"]}
{"id": "C16", "title": "Dates from the future are never recorded", "statement": "Every date recorded for or reported about a peer is at most the clock reading taken while processing the mail it came from, so a mail with a future Date cannot block later key updates.", "quantifier": "all histories with a non-decreasing clock, all Date headers", "why_tests_cant": "All Date headers and clocks.", "anchors": ["muacrypt/account.py:effective_date", "muacrypt/account.py:parse_date_to_float", "muacrypt/account.py:Account.process_incoming"]}
{"id": "C17", "title": "A key is accepted only from one valid header whose address is the sender's", "statement": "Processing a mail changes the direct key, its prefer-encrypt setting or the Autocrypt timestamp of a peer only if the peer is the From address, the mail is not a multipart/report, the From field does not contain several addresses and exactly one Autocrypt header is valid and names that same address; and then the new key is the one in that header.", "quantifier": "all states, all messages with any number of From and Autocrypt headers", "why_tests_cant": "All header combinations.", "anchors": ["muacrypt/mime.py:parse_one_ac_header_from_msg", "muacrypt/account.py:Account.process_autocrypt_header"]}
{"id": "C18", "title": "A mail is skipped as known only if it was processed before", "statement": "With duplicate detection on, process_incoming skips a mail only if a mail with the same Message-Id from the same peer has been recorded by that account before; a mail never processed before is not skipped.", "quantifier": "all reachable states, all messages, with and without Message-Id", "why_tests_cant": "All histories.", "anchors": ["muacrypt/account.py:Account.process_incoming", "muacrypt/states.py:PeerState.has_message"]}
{"id": "C19", "title": "Mail without a valid Autocrypt header never changes the key", "statement": "Processing a mail without a valid Autocrypt header changes neither key, prefer-encrypt setting, direct-key flag nor Autocrypt timestamp of the sender; it can only raise last_seen. (Gossip inside the same encrypted mail that names the sender itself counts, like any gossip, for a sender without a direct key.)", "quantifier": "all reachable states, all messages without a valid header", "why_tests_cant": "All states.", "anchors": ["muacrypt/states.py:PeerState.update_from_msg", "muacrypt/account.py:Account.process_autocrypt_header"]}
{"id": "C20", "title": "Recommendation for one recipient follows the Autocrypt rules", "statement": "For a single recipient: 'disable' iff no key is known; otherwise 'encrypt' if replying to an encrypted mail; otherwise 'discourage' if only a gossip key is known or the last mail seen is more than 35 days newer than the last Autocrypt mail; otherwise 'encrypt' iff both sides prefer mutual and the last mail seen carried Autocrypt; otherwise 'available'.", "quantifier": "all reachable peer states, both own preferences, both reply flags", "why_tests_cant": "Boundary (exactly 35 days) and all states.", "anchors": ["muacrypt/recommendation.py:PeerRecommendation"]}
{"id": "C21", "title": "Recommendation for several recipients is the most cautious one", "statement": "The recommendation for a non-empty set of recipients is the most cautious (disable < discourage < available < encrypt) of the individual ones; adding further recipients never makes it less cautious; it is 'disable' iff some recipient has no key; it does not depend on the order or repetition of recipients.", "quantifier": "all states, all recipient lists of any length", "why_tests_cant": "All recipient lists.", "anchors": ["muacrypt/recommendation.py:Recommendation.ui_recommendation", "muacrypt/account.py:Account.get_recommendation"]}
{"id": "C22", "title": "Asking for a recommendation always gives an answer and changes nothing", "statement": "For an existing account get_recommendation/ui_recommendation never raises, returns one of the four recommendations and changes no state.", "quantifier": "all reachable states, all recipient lists", "why_tests_cant": "Absence of a crash in all reachable states (the code dereferences a possibly missing entry).", "anchors": ["muacrypt/recommendation.py:PeerRecommendation.ui_recommendation", "muacrypt/recommendation.py:Recommendation.ui_recommendation"]}
{"id": "C23", "title": "Without a reply, mail is encrypted automatically only if everybody wants it", "statement": "If no reply to an encrypted mail is involved and there is at least one recipient, 'encrypt' is recommended only if the account prefers mutual and for every recipient the reported key is a direct key with mutual preference.", "quantifier": "all reachable states and recipient lists", "why_tests_cant": "All states.", "anchors": ["muacrypt/recommendation.py:PeerRecommendation.ui_recommendation"]}
{"id": "C24", "title": "Generated Autocrypt headers parse back to what was put in", "statement": "For every routable lower-case address without ';', every non-empty key and both preferences, parsing the header value made for them yields exactly that address, key and preference, with no error and no extra attributes; with any other preference string it yields an error.", "quantifier": "all keys of any length, all such addresses", "why_tests_cant": "Base64 padding, line folding and splitting at every length.", "anchors": ["muacrypt/mime.py:make_ac_header_value", "muacrypt/mime.py:indented_split", "muacrypt/mime.py:parse_ac_headervalue", "muacrypt/mime.py:decode_keydata"]}
{"id": "C25", "title": "Parsing a header value never raises", "statement": "parse_ac_headervalue returns a result object (possibly with error set) for every header value whatsoever.", "quantifier": "all strings", "why_tests_cant": "All strings.", "anchors": ["muacrypt/mime.py:parse_ac_headervalue"]}
{"id": "C26", "title": "Unknown critical attributes reject a header; underscore attributes do not matter", "statement": "A header value with an attribute other than addr, prefer-encrypt, keydata not starting with '_' is rejected; adding or removing attributes starting with '_' changes nothing but the extra attributes; the order of differently named attributes does not matter.", "quantifier": "all header values (attribute lists of any length)", "why_tests_cant": "All attribute lists.", "anchors": ["muacrypt/mime.py:parse_ac_headervalue"]}
{"id": "C27", "title": "Header lines stay short and carry the whole key", "statement": "Every line of the folded key in a generated header is indented by two blanks and has at most 80 characters, and removing the folding yields the base64 of the key again.", "quantifier": "all keys of any length", "why_tests_cant": "All lengths.", "anchors": ["muacrypt/mime.py:indented_split", "muacrypt/mime.py:make_ac_header_value"]}
{"id": "C28", "title": "Base64 key transport is lossless", "statement": "Decoding the base64 form of any byte string, even with white space inserted anywhere, gives the byte string back.", "quantifier": "all byte strings, all insertions of white space", "why_tests_cant": "All byte strings.", "anchors": ["muacrypt/mime.py:decode_keydata", "muacrypt/mime.py:make_ac_header_value"]}
{"id": "C29", "title": "A mail that must be encrypted is never sent in clear", "statement": "If an outgoing mail asks for encryption (ENCRYPT: yes), process_outgoing either returns a PGP/MIME encrypted mail or raises; if it encrypts, the original body appears in the result only as input to gpg encryption.", "quantifier": "all states, all messages, all gpg behaviours", "why_tests_cant": "All states and messages.", "anchors": ["muacrypt/account.py:Account.process_outgoing", "muacrypt/account.py:Account.encrypt_mime"]}
{"id": "C30", "title": "A mail that must not be encrypted is not", "statement": "With ENCRYPT: no, or with no/opportunistic ENCRYPT header and a recommendation other than 'encrypt', process_outgoing returns the mail unencrypted with its body unchanged.", "quantifier": "all states, all messages", "why_tests_cant": "All states and messages.", "anchors": ["muacrypt/account.py:Account.process_outgoing"]}
{"id": "C31", "title": "The ENCRYPT control header never leaves the machine", "statement": "The mail returned by process_outgoing has no ENCRYPT header, in any capitalization, however many the input had.", "quantifier": "all states, all messages", "why_tests_cant": "All messages.", "anchors": ["muacrypt/account.py:Account.process_outgoing", "muacrypt/mime.py:transfer_non_content_headers"]}
{"id": "C32", "title": "Outgoing mail carries exactly the right Autocrypt header", "statement": "If the outgoing mail already has Autocrypt headers they are kept as they are; otherwise exactly one is added, which names the sender address, the account's own public key and the account's preference.", "quantifier": "all states, all messages", "why_tests_cant": "All messages.", "anchors": ["muacrypt/account.py:Account.process_outgoing", "muacrypt/account.py:Account.make_ac_header"]}
{"id": "C33", "title": "Encrypted mail can be read by every recipient and the sender", "statement": "When process_outgoing encrypts, the keys passed to gpg contain, for every To and Cc address and for the sender, the key currently in use for that address (the account's own key for own addresses without peer state), and nothing else; the mail is signed with the account's key.", "quantifier": "all states, all messages, all recipient lists", "why_tests_cant": "All recipient lists.", "anchors": ["muacrypt/account.py:Account.encrypt_mime", "muacrypt/account.py:Account.process_outgoing", "muacrypt/bingpg.py:BinGPG.encrypt"]}
{"id": "C34", "title": "Encryption keeps headers outside and content inside", "statement": "Encrypting a mail keeps all its non-content headers (in order) on the encrypted mail, puts only content headers plus gossip headers on the protected part, and decrypting restores payload and headers.", "quantifier": "all messages and header lists", "why_tests_cant": "All header lists.", "anchors": ["muacrypt/mime.py:make_content_message_from_email", "muacrypt/mime.py:transfer_non_content_headers", "muacrypt/account.py:Account.encrypt_mime", "muacrypt/account.py:Account.decrypt_mime"]}
{"id": "C35", "title": "Gossip headers tell the truth", "statement": "The protected part of an encrypted mail contains one gossip header for every recipient with a known peer key, in order, and parsing it yields that recipient's address and the key in use.", "quantifier": "all states and recipient lists", "why_tests_cant": "All recipient lists and keys.", "anchors": ["muacrypt/account.py:Account.encrypt_mime"]}
{"id": "C36", "title": "Only gossip inside the encrypted part is believed", "statement": "Gossip keys are taken only from headers of the encrypted part of a mail, never from its cleartext headers.", "quantifier": "all states, all encrypted messages", "why_tests_cant": "Adversarial header placement.", "anchors": ["muacrypt/account.py:Account.decrypt_mime", "muacrypt/mime.py:transfer_non_content_headers", "muacrypt/account.py:Account.process_gossip_headers"]}
{"id": "C37", "title": "Gossip reaches every recipient regardless of capitalization", "statement": "A valid gossip header for a To/Cc recipient is processed whatever the capitalization of the address in the To/Cc header.", "quantifier": "all encrypted messages and address capitalizations", "why_tests_cant": "All capitalizations.", "anchors": ["muacrypt/account.py:Account.process_gossip_headers", "muacrypt/mime.py:get_target_emailadr"]}
{"id": "C38", "title": "A malformed gossip header does no harm", "statement": "A gossip header whose key cannot be parsed or imported is ignored; processing the rest of the mail is unaffected and does not raise.", "quantifier": "all encrypted messages, all gossip headers, all gpg import failures", "why_tests_cant": "All malformed headers.", "anchors": ["muacrypt/account.py:Account.process_gossip_headers", "muacrypt/account.py:Account._import_key", "muacrypt/states.py:MsgGossipEntry"]}
{"id": "C39", "title": "The own key of an account never changes", "statement": "Once an account exists, no API call except deleting that account or all state changes its own key handle; in particular adding it again fails with AccountExists and changes nothing.", "quantifier": "all reachable states, all API calls", "why_tests_cant": "All histories.", "anchors": ["muacrypt/account.py:AccountManager.add_account", "muacrypt/account.py:Account.create", "muacrypt/states.py:OwnState.keyhandle"]}
{"id": "C40", "title": "Deleting an account removes all its state and nothing else", "statement": "After del_account the account is not listed, has no peers and no settings, and creating it again starts from scratch (also for out-of-band verifications); all other accounts, also ones with similar names, are unchanged.", "quantifier": "all reachable states, all account names", "why_tests_cant": "All name pairs and states.", "anchors": ["muacrypt/states.py:States.remove_account", "muacrypt/account.py:AccountManager.del_account"]}
{"id": "C41", "title": "A failed add_account leaves the manager usable", "statement": "If add_account raises, then every other account can still be listed, found by e-mail address and used as before.", "quantifier": "all reachable states, all argument combinations, all gpg failures", "why_tests_cant": "All failure points.", "anchors": ["muacrypt/account.py:Account.create", "muacrypt/account.py:AccountManager.add_account", "muacrypt/account.py:AccountManager.get_account_from_emailadr"]}
{"id": "C42", "title": "mod_account changes exactly what was asked", "statement": "mod_account sets exactly the specified settings (address regex, gpg binary, preference, key), leaves all others and all other accounts unchanged, reports whether anything changed, and an invalid preference raises and changes nothing.", "quantifier": "all reachable states, all argument combinations", "why_tests_cant": "All combinations.", "anchors": ["muacrypt/account.py:AccountManager.mod_account", "muacrypt/account.py:Account.modify", "muacrypt/states.py:OwnState.change_config"]}
{"id": "C43", "title": "Address lookup finds the first matching account in name order", "statement": "get_account_from_emailadr returns the alphabetically first account whose regex matches the address, and none (or AccountNotFound) if no account matches; an incoming mail is routed by its To/Cc addresses in order before Delivered-To.", "quantifier": "all states in which every listed account is complete, all addresses, all regexes", "why_tests_cant": "All account sets.", "anchors": ["muacrypt/account.py:AccountManager.get_account_from_emailadr", "muacrypt/account.py:AccountManager.get_matching_account_for_incoming_message"]}
{"id": "C44", "title": "An account with its own keyring never touches another keyring", "statement": "Every gpg invocation made by any API call for an account in 'own' mode names that account's own gpg home directory; the system keyring and the keyrings of other accounts are unchanged by it.", "quantifier": "all states, all API calls, all gpg behaviours", "why_tests_cant": "All code paths.", "anchors": ["muacrypt/bingpg.py:BinGPG._gpg_outerr", "muacrypt/bingpg.py:BinGPG._homedirflags", "muacrypt/account.py:Account.bingpg", "muacrypt/states.py:States.get_own_gpghome"]}
{"id": "C45", "title": "Account names cannot escape the state directory", "statement": "Only non-empty alphanumeric account names are accepted by any API call; for any other name the call raises and changes nothing, so the gpg home of an account is always a direct child of the state directory's gpg folder, different for different accounts.", "quantifier": "all strings as account names", "why_tests_cant": "All strings.", "anchors": ["muacrypt/account.py:Account.__init__", "muacrypt/states.py:States.get_own_gpghome"]}
{"id": "C46", "title": "destroy-all resets everything", "statement": "After remove() no account, peer, setting or verification is visible and accounts can be created again as in a fresh directory.", "quantifier": "all reachable states", "why_tests_cant": "All states.", "anchors": ["muacrypt/account.py:AccountManager.remove"]}
{"id": "C47", "title": "Unknown accounts are reported, not created", "statement": "Every call naming an account that does not exist raises AccountNotFound and creates no account, peer or key.", "quantifier": "all reachable states, all names", "why_tests_cant": "All states.", "anchors": ["muacrypt/account.py:AccountManager.get_account"]}
{"id": "C48", "title": "The version of the state directory is set once", "statement": "The manager's version is set on first use and never changes until destroy-all; initializing twice never happens through the API.", "quantifier": "all histories", "why_tests_cant": "All histories.", "anchors": ["muacrypt/account.py:AccountManager._ensure_init", "muacrypt/states.py:AccountManagerState.set_version"]}
{"id": "C49", "title": "Importing a key by hand associates it with exactly the right addresses", "statement": "import_keydata_as_autocrypt with an address records the imported key, with the given preference, as direct key of exactly that peer with the current time; without address, of exactly the peers named in the key's user ids.", "quantifier": "all states, all keys", "why_tests_cant": "All keys and uid lists.", "anchors": ["muacrypt/account.py:Account.import_keydata_as_autocrypt"]}
{"id": "C50", "title": "The bot answers only mail addressed to it and never itself", "statement": "bot-reply produces a reply only if the bot's address occurs in the To header; the reply goes to the sender and to the other To/Cc addresses and never to the bot's own address, in any capitalization.", "quantifier": "all messages, all states", "why_tests_cant": "All messages.", "anchors": ["muacrypt/bot.py:bot_reply"]}
{"id": "C51", "title": "The bot's reply is encrypted whenever recommended, and it always answers", "statement": "If the recommendation for the sender is 'encrypt' the reply is a PGP/MIME encrypted mail or no reply is made at all; a mail addressed to the bot from a sender with a known key is always answered.", "quantifier": "all messages, all states", "why_tests_cant": "All messages.", "anchors": ["muacrypt/bot.py:bot_reply", "muacrypt/account.py:Account.encrypt_mime"]}
{"id": "C52", "title": "Scanning a mail folder processes every mail", "statement": "scandir-incoming processes every recent mail in the directory; a mail that cannot be processed does not prevent the others from being processed.", "quantifier": "all directories, all orders of listing, all messages", "why_tests_cant": "All message sets and orders.", "anchors": ["muacrypt/cmdline.py:scandir_incoming"]}
{"id": "C53", "title": "process-incoming reports truthfully whether Autocrypt information was found", "statement": "The process-incoming command says 'found' iff the mail carried a valid Autocrypt header that was recorded, and peerstate's last_ac_msg names the last mail that carried one.", "quantifier": "all messages, all states", "why_tests_cant": "All states.", "anchors": ["muacrypt/cmdline.py:process_incoming", "muacrypt/cmdline.py:peerstate"]}
{"id": "C54", "title": "Keys are matched by id suffix", "statement": "A key matches an id iff one of the two is, ignoring case, a suffix of the other and the given id is not empty (or both are empty); matching is symmetric.", "quantifier": "all strings", "why_tests_cant": "All strings.", "anchors": ["muacrypt/bingpg.py:KeyInfo.match"]}
{"id": "C55", "title": "Mail content and keys are passed to gpg only on standard input", "statement": "No gpg command line built by muacrypt contains message content or key material; encryption passes each recipient key exactly once per recipient, in order, after -r.", "quantifier": "all inputs", "why_tests_cant": "All inputs.", "anchors": ["muacrypt/bingpg.py:BinGPG.encrypt", "muacrypt/bingpg.py:BinGPG.import_keydata", "muacrypt/bingpg.py:BinGPG.decrypt"]}
{"id": "C56", "title": "Message dates are compared as instants", "statement": "If one mail was sent (according to its Date header including time zone) before another, its effective date is not later.", "quantifier": "all pairs of Date headers with time zones", "why_tests_cant": "All zone combinations.", "anchors": ["muacrypt/account.py:parse_date_to_float"]}
{"id": "C57", "title": "Truncated header display is bounded", "statement": "trunc_string returns the string unchanged if short enough, and otherwise its beginning plus the exact number of dropped characters, in at most the maximal length.", "quantifier": "all strings and lengths", "why_tests_cant": "All lengths.", "anchors": ["muacrypt/cmdline_utils.py:trunc_string"]}
{"id": "C58", "title": "Log sections never leak indentation", "statement": "However sections are nested and whatever raises inside them, the bot log's indentation after a section is what it was before.", "quantifier": "all nestings of sections, all exceptions", "why_tests_cant": "All nestings.", "anchors": ["muacrypt/bot.py:SimpleLog"]}
{"id": "C59", "title": "Forwarded (resent) mail is passed through untouched", "statement": "process-outgoing with a Resent-From header returns the mail unmodified if an account matches the resent address and raises otherwise.", "quantifier": "all messages, all states", "why_tests_cant": "All messages.", "anchors": ["muacrypt/cmdline.py:_process_outgoing"]}
{"id": "C60", "title": "The mime structure rendering has one line per part", "statement": "The structure rendering of a message with at least one part in every multipart has exactly one line per mime part, each starting with the tree prefix.", "quantifier": "all mime trees of any depth", "why_tests_cant": "All trees.", "anchors": ["muacrypt/mime.py:render_mime_structure"]}
{"id": "C61", "title": "Each command does its call and prints its result", "statement": "Every muacrypt command leaves the state its API call leaves, fails when that call fails, and prints exactly the result: the account found, the recommendation, the header, the key, the rewritten mail, the peer state, the settings after add/mod, the accounts left after del.", "quantifier": "all commands, all arguments, all standard input, all reachable states", "why_tests_cant": "The command line is tested with a few fixed accounts and mails; the claim is about all arguments and all states.", "anchors": ["muacrypt/cmdline.py:add_account", "muacrypt/cmdline.py:mod_account", "muacrypt/cmdline.py:del_account", "muacrypt/cmdline.py:find_account", "muacrypt/cmdline.py:make_header", "muacrypt/cmdline.py:recommend", "muacrypt/cmdline.py:peerstate", "muacrypt/cmdline.py:process_incoming", "muacrypt/cmdline.py:process_outgoing", "muacrypt/cmdline.py:import_public_key", "muacrypt/cmdline.py:export_public_key", "muacrypt/cmdline.py:destroy_all"]}
{"id": "C62", "title": "The sendmail command hands over exactly the processed mail", "statement": "muacrypt sendmail starts the sendmail program once, with exactly the arguments given, feeds it the mail as rewritten by process_outgoing in UTF-8, and exits with its exit code; a mail that says ENCRYPT: yes is never handed over in the clear, and no ENCRYPT header leaves the machine.", "quantifier": "all mails, all arguments, all states, all exit codes", "why_tests_cant": "Tests use a fake sendmail with one mail; a mail leaking in the clear may depend on any header combination.", "anchors": ["muacrypt/cmdline.py:sendmail", "muacrypt/cmdline.py:_process_outgoing", "muacrypt/bingpg.py:find_executable"]}
{"id": "C63", "title": "The status command tells what is stored", "statement": "muacrypt status changes nothing and shows, for every account, its settings, key and user ids as stored, and with --verbose every peer with its key, the time it was last seen and whether its last mail had an Autocrypt header.", "quantifier": "all reachable states, all accounts, all peers", "why_tests_cant": "Output depends on every stored setting and peer.", "anchors": ["muacrypt/cmdline.py:status", "muacrypt/cmdline.py:_status_account"]}
{"id": "C64", "title": "Two accounts exchange keys by ordinary mail", "statement": "If a mail goes out through process_outgoing and transport leaves From, Autocrypt, Date and Content-Type alone, then processing it at the receiver makes the receiver know the sender's key as stated, with the sender's preference, provided it is dated after what the receiver knew and gpg can import the key; from then on the recommendation for the sender is encrypt if both prefer mutual and available otherwise, and encrypted mail to the sender is encrypted to that key.", "quantifier": "all reachable states of both sides, all mails, all ways of delivery that keep the four fields", "why_tests_cant": "The guarantee spans two installations and several calls; tests exercise single fixed exchanges.", "anchors": ["muacrypt/account.py:Account.process_outgoing", "muacrypt/account.py:Account.process_incoming", "muacrypt/mime.py:make_ac_header_value", "muacrypt/mime.py:parse_one_ac_header_from_msg"]}
{"id": "C65", "title": "gpg is asked for nothing but what a call needs", "statement": "Every gpg command started (apart from gpg --version) is one of nine kinds, and each API call and command starts only those of its kinds: only adding an account and export-secret-key export a secret key, only adding an account generates one, only import_public_key deletes a public key, recommendations, listings and account changes start none of them.", "quantifier": "all calls, all arguments, all states, all answers of gpg", "why_tests_cant": "Tests do not see which gpg commands run; an unwanted one may depend on any earlier answer of gpg.", "anchors": ["muacrypt/bingpg.py:BinGPG", "muacrypt/account.py:Account", "muacrypt/cmdline.py:status"]}
{"id": "C66", "title": "Recommended keys are the keys encrypted to", "statement": "target_keyhandles lists each recipient, under its normalized address, exactly once with the key known for it, and encrypt_mime uses exactly these keys; only for an own address without a known key it uses the own key.", "quantifier": "all reachable states, all lists of addresses in any spelling", "why_tests_cant": "Two separate paths through the code compute the keys; they must agree in all states.", "anchors": ["muacrypt/recommendation.py:Recommendation.target_keyhandles", "muacrypt/account.py:Account.encrypt_mime"]}
{"id": "C67", "title": "Accounts do not depend on each other", "statement": "The result of a call that names an account, and everything stored for that account afterwards, is the same in any two states with the same logs, key ring and clock for this account, whatever other accounts there are and whatever they contain; so a call on one account makes no difference for a call on another with its own key ring, except that time passes.", "quantifier": "all pairs of reachable states, all calls that name an account, all sessions of such calls", "why_tests_cant": "Compares pairs of executions; no test can vary everything that is not supposed to matter.", "anchors": ["muacrypt/account.py:Account", "muacrypt/states.py:States", "muacrypt/states.py:OwnState", "muacrypt/states.py:PeerState"]}
{"id": "C68", "title": "Outgoing mail may pass process_outgoing twice", "statement": "A mail that process_outgoing has rewritten is left alone when it is processed again: same mail, no header added, gpg not run, nothing stored; encrypted mail with an Autocrypt header is left alone by every account at every time.", "quantifier": "all reachable states, all accounts, all mails", "why_tests_cant": "Pipelines that call process-outgoing and then sendmail depend on this for every mail; tests process a mail once.", "anchors": ["muacrypt/account.py:Account.process_outgoing", "muacrypt/cmdline.py:sendmail", "muacrypt/cmdline.py:process_outgoing"]}
{"id": "C69", "title": "Decryption reports the keys that gpg names", "statement": "Decrypting a mail starts gpg once, on the encrypted part of the mail; what gpg puts out is the content of the new mail, and the keys returned are exactly those gpg says the mail is encrypted to, in order, each with its own user id; whenever gpg decrypts, the call returns.", "quantifier": "all reachable states, all mails, everything gpg may write to stderr", "why_tests_cant": "The text of gpg depends on its version, on the mail and on the key ring; tests see one text.", "anchors": ["muacrypt/bingpg.py:BinGPG.decrypt", "muacrypt/account.py:Account.decrypt_mime"]}
{"id": "C70", "title": "The program started is the one chosen for the account", "statement": "Every gpg command of a call is run with the file found for the program name of its account (the name given in the call, or else the one in the settings): the name itself if it is a file name, otherwise the first file of that name in the directories of PATH. Over any history, only files found for names that were given for an account are started.", "quantifier": "all histories of calls, all values of PATH, all file systems", "why_tests_cant": "Tests run with one gpg in one PATH, so a wrong choice among several programs or directories is not seen.", "anchors": ["muacrypt/bingpg.py:find_executable", "muacrypt/bingpg.py:BinGPG.__init__", "muacrypt/account.py:Account.bingpg"]}
{"id": "C71", "title": "The options for keys without passphrase go with the version of gpg", "statement": "From the version that gpg tells in its first line of --version: from 2.1 on every command that needs a secret key gets --pinentry-mode=loopback, before 2.1 none does; versions are compared number by number, not as texts. Every version is accepted.", "quantifier": "all reachable states, all calls, all version numbers with any number of parts", "why_tests_cant": "Tests run with the version installed; two-digit parts and missing parts never occur.", "anchors": ["muacrypt/bingpg.py:BinGPG.gpg_version", "muacrypt/bingpg.py:BinGPG.isgpg21", "muacrypt/bingpg.py:BinGPG._nopassphrase"]}
{"id": "C72", "title": "An account made for a given key gets a key with that name", "statement": "add_account with a key handle asks the gpg of the account to list the secret keys with that handle and takes the first key listed whose id ends with the handle, or one of whose user ids is the handle. If there is none, no account is made.", "quantifier": "all reachable states, names, modes, programs and handles, whatever gpg prints", "why_tests_cant": "Tests use one key per ring; the choice among several keys, and user ids that contain the handle, never occur.", "anchors": ["muacrypt/bingpg.py:BinGPG.get_secret_keyhandle", "muacrypt/bingpg.py:BinGPG._parse_list", "muacrypt/bingpg.py:KeyInfo.match", "muacrypt/account.py:Account.create"]}
{"id": "C73", "title": "Key handles are the ones that gpg reported", "statement": "The handle of a generated key is the first key named in what gpg wrote when it generated the key for a random address with the fixed settings; the handle of a peer is the one gpg named when it imported the recorded key. A short id is completed from a listing made in the same ring.", "quantifier": "all reachable states, all calls, whatever gpg prints", "why_tests_cant": "What gpg prints differs between versions; tests see one. That no handle comes from anywhere else is a statement about all histories.", "anchors": ["muacrypt/bingpg.py:BinGPG.gen_secret_key", "muacrypt/bingpg.py:BinGPG._find_keyhandle", "muacrypt/bingpg.py:BinGPG.import_keydata", "muacrypt/account.py:Account._import_key"]}
{"id": "C74", "title": "No failure of gpg is overlooked", "statement": "If a call returns normally, every gpg process it started ended with exit code 0, wrote readable messages, and, for exports, no message at all. Key rings change only by the gpg processes recorded.", "quantifier": "all states, all calls, whatever gpg does at each start", "why_tests_cant": "gpg hardly ever fails in tests; each place where a result is ignored would have to be met by a failure at the right moment.", "anchors": ["muacrypt/bingpg.py:BinGPG._gpg_out", "muacrypt/bingpg.py:BinGPG._gpg_outerr", "muacrypt/bingpg.py:BinGPG.get_public_keydata", "muacrypt/account.py:Account._import_key", "muacrypt/bingpg.py:BinGPG.import_keydata"]}
{"id": "C75", "title": "Capitalization makes no difference", "statement": "Incoming mails that differ only in the capitalization of header field names, also in their parts, are processed in the same way, with the same answer and the same state. Addresses that differ only in capitalization are the same peer: for what is known, recommended, imported, encrypted and verified.", "quantifier": "all states, all mails with any nesting of parts, all addresses of ASCII characters", "why_tests_cant": "Tests write header names in one way, and a few addresses.", "anchors": ["muacrypt/mime.py:parse_email_addr", "muacrypt/mime.py:parse_one_ac_header_from_msg", "muacrypt/mime.py:is_encrypted", "muacrypt/account.py:Account.process_incoming", "muacrypt/account.py:Account.get_recommendation"]}
{"id": "C76", "title": "Plugins decide about the encrypted content and nothing else", "statement": "Whatever registered plugins do with the arguments of the hooks: incoming mail is recorded in the same way, and answered in the same way but for the gossip in the answer. What is encrypted is what they left of the mail and its gossip, encrypted to the same keys, under the same headers outside; they are told the sender, its key and the known keys of the recipients. Mail is encrypted in the same cases, and mail sent in the clear is not shown to them. If one raises, gpg is given nothing and no mail is given out instead.", "quantifier": "all lists of plugins, all mails, all states reached by calls with any plugins", "why_tests_cant": "Tests register one or two plugins and look at a few mails.", "anchors": ["muacrypt/hookspec.py:process_incoming_gossip", "muacrypt/hookspec.py:process_before_encryption", "muacrypt/account.py:Account.process_incoming", "muacrypt/account.py:Account.encrypt_mime", "muacrypt/account.py:Account.process_outgoing"]}
{"id": "C77", "title": "Reading a log finds the newest entry, also when older files are damaged", "statement": "Reading with an early stop finds the newest entry that is looked for among all that were appended, for every kind of lookup. It depends only on the block files up to that entry: older ones may be missing or hold anything. A block file that cannot be read is an error for those who look that far, and a missing one is noticed as well. The files of a log are linked, distinct, as many as its entries; its length, its files, its oldest block and its dump are those of the entries appended.", "quantifier": "all histories of calls, all logs, all lookups, any change to older block files", "why_tests_cant": "Tests read intact stores only; no test removes or damages a block file.", "anchors": ["muacrypt/chainstore.py:Block.__iter__", "muacrypt/chainstore.py:Block.contains_cid", "muacrypt/chainstore.py:Block.get_last_parent", "muacrypt/chainstore.py:ChainStates.iter_blocks", "muacrypt/chainstore.py:ChainStates.dump", "muacrypt/chainstore.py:Chain.__len__", "muacrypt/chainstore.py:Chain.latest_entry_of", "muacrypt/states.py:PeerState.get_message_entry", "muacrypt/states.py:OOBState.get_verification"]}
{"id": "C78", "title": "The other methods of the gpg wrapper: packets, signatures, the agent, versions, error texts", "statement": "The packets of a key are those that gpg wrote for it, in order, with their values and details; no packet, or text before the first one, is an error. A signature is what gpg puts out for exactly this data and key; it is only said to be good if gpg succeeded for this data and signature, by the key gpg named. The agent of the same home directory is stopped from version 2.0 on; gpg-agent.conf is written from 2.0 on and before 2.1.12; EdDSA is used if the version lists it. The text of a failure has the command, the exit code and everything gpg wrote.", "quantifier": "all outputs of gpg, all data, keys and signatures, all version texts, all states", "why_tests_cant": "Tests run one installed version of gpg with a few keys; other versions and odd outputs never occur.", "anchors": ["muacrypt/bingpg.py:BinGPG.list_packets", "muacrypt/bingpg.py:BinGPG.sign", "muacrypt/bingpg.py:BinGPG.verify", "muacrypt/bingpg.py:BinGPG.killagent", "muacrypt/bingpg.py:BinGPG.supports_eddsa", "muacrypt/bingpg.py:BinGPG.isgpg2", "muacrypt/bingpg.py:InvocationFailure.__str__"]}
{"id": "C79", "title": "Mails are read as their text says", "statement": "Which mails count as encrypted, from whom, when written, which id, to whom, of which content type, with which fields, follows from the header fields and parts as written: a mail is encrypted if and only if its type is multipart/encrypted with exactly two parts of the types application/pgp-encrypted and application/octet-stream. The opened mail is the content that gpg put out for the second part, with the outer fields that do not describe the body. Mail that must be encrypted leaves in this form. The string operations used on the way are those of the usual definitions, UTF-8 that of RFC 3629.", "quantifier": "all mails, all texts, all bytes", "why_tests_cant": "Tests use a handful of mails; a mail that wrongly counts as encrypted would be sent in the clear.", "anchors": ["muacrypt/mime.py:is_encrypted", "muacrypt/mime.py:get_target_emailadr", "muacrypt/mime.py:parse_email_addr", "muacrypt/mime.py:transfer_non_content_headers", "muacrypt/account.py:parse_date_to_float", "muacrypt/account.py:Account.process_outgoing", "muacrypt/bingpg.py:BinGPG.decrypt"]}
{"id": "C80", "title": "The key of a peer is that of one entry: direct before gossip", "statement": "Key, key handle and preference reported for a peer are those of one entry: of the newest entry with a key received directly, if gpg could import that key, otherwise of the newest gossip entry. A key received by gossip states no preference. A peer has a direct key if and only if the first case holds.", "quantifier": "all reachable states, all accounts and peers", "why_tests_cant": "Tests look at peers with one kind of key; mixing up the entries shows only when both exist.", "anchors": ["muacrypt/states.py:PeerState.entry_for_encryption", "muacrypt/states.py:PeerState.has_direct_key", "muacrypt/states.py:PeerState.public_keyhandle", "muacrypt/states.py:PeerState.public_keydata", "muacrypt/states.py:PeerState.prefer_encrypt"]}
{"id": "C81", "title": "What is listed is what is there, and the newest verification counts", "statement": "Account names are listed in order and once each; an account appears in the list only by a call that creates it, stays until a call deletes it, and is gone after a successful deletion. The peers of an account are listed in order and once each; a peer is listed if and only if something was received from or about it. The verification reported for an address is the newest one that was recorded successfully for exactly this address and account since everything was last deleted, whatever else was done in between; the number of peers can be asked for.", "quantifier": "all sessions, all reachable states, all calls, accounts and addresses", "why_tests_cant": "Tests list a few accounts and record one verification; no test deletes and creates in all orders, and the method that counts peers is never called.", "anchors": ["muacrypt/states.py:States.get_account_names", "muacrypt/states.py:States.get_peername_list", "muacrypt/states.py:States.get_num_peers", "muacrypt/states.py:OOBState.get_verification", "muacrypt/states.py:OOBState.append_self_verification", "muacrypt/states.py:OOBState.append_peer_verification"]}
{"id": "C82", "title": "The bot's report is true and its reply goes to those addressed", "statement": "The text of the bot's reply is a report of what happened: the Delivered-To address that was used; for each of eight headers one line with the value, shortened, or that it was not found; the structure of the mail; the complaint about the Autocrypt header or else what is now recorded about the sender; for an encrypted mail the keys it was encrypted to; the bot's own key; and as last line the recommendation for the reply, which is encrypted exactly if that is 'encrypt'. Without --smtp the reply is printed and nothing is sent; with it the reply is sent by that server, from the bot's address, to the sender and to everybody addressed except the bot, and nothing but a notice is printed; if there is no reply nothing is printed or sent. No text in a mail can imitate a line of the report.", "quantifier": "all reachable states, all mails, all fallback addresses and values of --smtp, all behaviours of gpg and of the server", "why_tests_cant": "Tests look for a few words in the replies to a few mails; none reads the whole report, uses --smtp, or has unusual line ends in headers.", "anchors": ["muacrypt/bot.py:bot_reply", "muacrypt/bot.py:send_reply", "muacrypt/bot.py:SimpleLog"]}
{"id": "C83", "title": "Directories and temporary files are made with care", "statement": "Creating the wrapper for a gpg home directory, or opening a state directory, alters nothing that is there, and at any time has added at most the directory, missing directories above it, and for the wrapper gpg-agent.conf. A home directory that was missing is accessible to its owner only; gpg-agent.conf is written, with its one line, exactly if it is missing and the version of gpg is at least 2.0 and before 2.1.12; doing it again changes nothing. For the keyring of the system, or if gpg is not found, nothing is touched. The temporary file for a command is new, accessible to its owner only, has exactly the content when the command starts, and is removed whatever happens; the report of a failed key generation quotes it exactly. All this also holds when a process died at any time before.", "quantifier": "all directory trees, permissions, umasks and amounts of free space, all versions of gpg, death at any operation or in the middle of a write, all commands run with a temporary file", "why_tests_cant": "Tests make directories on one machine in an empty temporary directory, with room on the disk, and never kill the process in between; permissions are not looked at.", "anchors": ["muacrypt/bingpg.py:BinGPG.__init__", "muacrypt/bingpg.py:BinGPG._ensure_init", "muacrypt/bingpg.py:BinGPG.temp_written_file", "muacrypt/bingpg.py:BinGPG.gen_secret_key", "muacrypt/states.py:States.__init__"]}
{"id": "C84", "title": "What is typed on the command line is what is done", "statement": "A command runs exactly if its name follows the options of the group and the words after it spell its options and arguments: long options with the value after = or in the next word, letters joined or apart, the last value given counts, two dashes end the options, defaults for what is not given. Every command can be given any arguments. All state is destroyed only if both destroy-all and --yes are typed. Other words change nothing and start nothing, and the exit code is 0 (help, version) or 2: nothing typed at all is a request for help, and a name that is not a command is an error. The directory is the one given by an option, else the one in the environment, else the default. The command is then carried out with exactly these arguments; the exit code is 1 if it fails, with a traceback unless the exception is meant for the user. The program sendmail is started with exactly the words after the command.", "quantifier": "all sequences of words, all inputs on stdin, all directories of mails, all states, all programs started", "why_tests_cant": "Tests call each command with one or two sets of options; the words that click takes for something else are never tried.", "anchors": ["muacrypt/cmdline.py:muacrypt_main", "muacrypt/cmdline.py:sendmail", "muacrypt/cmdline.py:destroy_all", "muacrypt/cmdline.py:add_account", "muacrypt/cmdline.py:mod_account", "muacrypt/cmdline_utils.py:MyCommand", "muacrypt/bot.py:bot_reply"]}
{"id": "C85", "title": "A process that reads while others write gets what was stored", "statement": "A program that only looks at the state (a peer's state, the settings, the recommendation) may run while other processes process mails, add, modify or delete accounts on the same directory. Its answer is the one it would get if each read of a log happened in one moment, the other processes working between the reads; so whatever it says about one log was true at some moment during its run, and it never sees a log half written. The reader in turn leaves no trace: without it the other processes could have done exactly the same. An answer that comes from several logs was also true at some moment.", "quantifier": "all sequences of calls before, any number of other processes with any calls, all interleavings of their file operations, all programs that only read", "why_tests_cant": "Tests run one process at a time; the moments between two file operations of another process cannot be hit.", "anchors": ["muacrypt/chainstore.py:BlockService.get_block", "muacrypt/chainstore.py:HeadTracker._getheads", "muacrypt/chainstore.py:HeadTracker.upsert", "muacrypt/chainstore.py:ChainStates.iter_blocks", "muacrypt/recommendation.py:Recommendation.ui_recommendation"]}
{"id": "C86", "title": "Account objects that are kept behave like accounts got anew", "statement": "A program may get or add any number of accounts, keep the objects, and call their methods (processing incoming and outgoing mails, encrypting, decrypting, headers, exports, imports, recommendation, peers, settings) in any order, with any other calls in between. Every answer, and everything that is stored, is the same as if it had got the account anew from the manager for every single call: what an object remembers from earlier calls makes no difference.", "quantifier": "all reachable states, all sequences of getting, adding, method calls on any of the objects kept, and other calls of the API and the command line", "why_tests_cant": "Tests keep an object for a few calls; which calls have filled its cache, and what others did meanwhile, varies without bound.", "anchors": ["muacrypt/account.py:Account.bingpg", "muacrypt/account.py:Account.create", "muacrypt/account.py:AccountManager.get_account", "muacrypt/account.py:AccountManager.add_account", "muacrypt/bingpg.py:cached_property"]}
{"id": "C87", "title": "A decision that looks several times at a log comes out as if it had looked once", "statement": "Every property of a peer's state and of the own settings walks through the log anew, so a recommendation, the processing of a mail, the choice of the gpg program and the encryption for a recipient read the same log many times. Their answers and effects are those of a program that reads the log once and decides from that: alone, while other processes work on other logs, and while they work on the same log.", "quantifier": "all accounts, mails, recipients and states; for the recommendation also any number of other processes and all interleavings of their file operations", "why_tests_cant": "Tests run one process at a time, and cannot place another process between two reads of one property.", "anchors": ["muacrypt/states.py:PeerState.entry_for_encryption", "muacrypt/states.py:PeerState.update_from_msg", "muacrypt/states.py:config_property", "muacrypt/recommendation.py:PeerRecommendation.ui_recommendation", "muacrypt/account.py:Account.bingpg", "muacrypt/account.py:Account.encrypt_mime"]}
{"id": "C88", "title": "Whoever sends an encrypted mail can read it with the own key of the account", "statement": "When process_outgoing encrypts a mail, the own key of the account is among the keys it is encrypted to, whatever mails the account has processed before.", "quantifier": "all accounts, reachable states, outgoing mails and sessions of incoming mails", "why_tests_cant": "Tests send from addresses for which nobody else has announced a key; whether other mails can replace the key of the sender needs all sessions.", "anchors": ["muacrypt/account.py:Account.encrypt_mime", "muacrypt/account.py:Account.process_outgoing", "muacrypt/account.py:Account.process_autocrypt_header", "muacrypt/account.py:Account.process_gossip_headers"]}
{"id": "C89", "title": "Everybody to whom the sendmail command delivers an encrypted mail can read it", "statement": "When the sendmail command encrypts a mail and starts the program sendmail, the mail is encrypted to a key of every recipient the program is told about: by its arguments and, with -t, by the headers To, Cc and Bcc.", "quantifier": "all states, mails and argument lists", "why_tests_cant": "The tests replace the program sendmail and look at its input only; who it delivers to depends on all arguments and headers.", "anchors": ["muacrypt/cmdline.py:sendmail", "muacrypt/account.py:Account.process_outgoing", "muacrypt/mime.py:get_target_fulladr"]}
{"id": "C90", "title": "Once mail to a peer can be encrypted, later mail does not make that impossible", "statement": "If there is a key for a peer, then after any sequence of processed mails there still is one, the same or another.", "quantifier": "all accounts, reachable states, peers and sessions of incoming mails, with every outcome of gpg", "why_tests_cant": "Tests process a few mails with good keys; whether some mail can take a key away needs all sequences of mails and all failures of gpg.", "anchors": ["muacrypt/account.py:Account.process_autocrypt_header", "muacrypt/account.py:Account._import_key", "muacrypt/states.py:PeerState.update_from_msg", "muacrypt/states.py:PeerState.entry_for_encryption"]}
{"id": "C91", "title": "A conversation that has become encrypted stays encrypted", "statement": "Two people with accounts on two computers, both with prefer_encrypt mutual and both always writing through process_outgoing, start as strangers. From the moment on that one of them has processed a mail of the other, every mail they write to the other without ENCRYPT: no goes out encrypted to a key of the other, however the network delays, repeats, reorders or loses the mails, and whatever else the two process in between.", "quantifier": "all pairs of machines, accounts, addresses and mails; all interleavings of sending, receiving and other calls, except importing keys by hand, changing settings, deleting the account, and mail of others in the name of one of the two", "why_tests_cant": "Tests exchange two or three mails in order; the claim is about all runs of two machines and the network between them.", "anchors": ["muacrypt/account.py:Account.process_outgoing", "muacrypt/account.py:Account.process_incoming", "muacrypt/account.py:Account.process_autocrypt_header", "muacrypt/states.py:PeerState.update_from_msg", "muacrypt/recommendation.py:Recommendation.ui_recommendation"]}
{"id": "C92", "title": "The help lists every command, in the order in which they were added", "statement": "However many commands muacrypt and its plugins add to the group of commands, the list of commands contains each of them once, in the order of adding, and a name runs the command that was added for it last.", "quantifier": "all sequences of added commands", "why_tests_cant": "Tests list the commands that come with muacrypt, without plugins.", "anchors": ["muacrypt/cmdline_utils.py:MyGroup.add_command", "muacrypt/cmdline_utils.py:MyGroup.list_commands", "muacrypt/cmdline.py:make_plugin_manager"]}
{"id": "C93", "title": "A recommendation that is kept says what a new one would say", "statement": "get_recommendation returns an object. Asked at any later time for ui_recommendation() or target_keyhandles(), it gives the answer that a recommendation made at that time would give.", "quantifier": "all accounts, recipients and pairs of reachable states, whatever happened in between", "why_tests_cant": "Tests ask right after making the object.", "anchors": ["muacrypt/account.py:Account.get_recommendation", "muacrypt/recommendation.py:Recommendation.ui_recommendation", "muacrypt/recommendation.py:Recommendation.target_keyhandles"]}
{"id": "C94", "title": "An encrypted mail arrives as it was written", "statement": "If a mail is encrypted with encrypt_mime, and the result is decrypted with decrypt_mime, and gpg gives back the bytes that it was given, then the text or the parts of the mail and all its header fields are those that were written, where mails are turned into bytes and back as Python's email package does.", "quantifier": "all ordinary mails: any nesting of multipart, any texts of ASCII characters and escaped bytes without CR and without lines that begin with 'From ', header fields that fit into their lines; for other texts: when exactly they arrive", "why_tests_cant": "Tests decrypt a few short mails; a line that begins with 'From ' or a character that is not ASCII does not occur in them.", "anchors": ["muacrypt/account.py:Account.encrypt_mime", "muacrypt/account.py:Account.decrypt_mime", "muacrypt/mime.py:msg2bytes", "muacrypt/mime.py:make_content_message_from_email", "muacrypt/mime.py:transfer_non_content_headers"]}
{"id": "C95", "title": "A sent mail means the same to its recipient", "statement": "If a mail is encrypted with encrypt_mime or by process-outgoing, written with as_string, sent as bytes, and parsed again by the recipient, possibly with one more line end, then decrypt_mime, process_incoming and process-incoming do the same with it and answer the same as with the mail object of the sender, in every state; a mail in the clear is read as it was.", "quantifier": "all mails with header fields of visible ASCII characters, any number of lines in a field, any ciphertext without CR and without lines that begin with '--=', all states of sender and recipient", "why_tests_cant": "The recipient's program runs elsewhere, on what Python's generator made of the mail; tests pass the mail object itself or one short mail through.", "anchors": ["muacrypt/account.py:Account.encrypt_mime", "muacrypt/account.py:Account.decrypt_mime", "muacrypt/account.py:Account.process_outgoing", "muacrypt/account.py:Account.process_incoming", "muacrypt/cmdline.py:process_outgoing", "muacrypt/cmdline.py:sendmail", "muacrypt/cmdline.py:process_incoming", "muacrypt/mime.py:parse_message_from_file"]}
{"id": "C96", "title": "What goes out is what the account's gpg put out in that very call", "statement": "The key in an Autocrypt header, the exported public and secret keys, the ciphertext of an encrypted mail and the content of a decrypted one are exactly the output of a gpg process that succeeded, that this very call started with the key ring of the account as it was at that moment, and for exactly this key, these recipients and this data; and the call starts no other process.", "quantifier": "all states that can be reached, all accounts, mails, recipients and key handles, every behaviour of gpg", "why_tests_cant": "It is about every state of the key rings and every output of gpg; tests see a few keys in fresh rings.", "anchors": ["muacrypt/account.py:Account.make_ac_header", "muacrypt/account.py:Account.export_public_key", "muacrypt/account.py:Account.export_secret_key", "muacrypt/account.py:Account.encrypt_mime", "muacrypt/account.py:Account.decrypt_mime", "muacrypt/account.py:Account.process_outgoing", "muacrypt/bingpg.py:BinGPG._gpg_outerr"]}
{"id": "C97", "title": "Every key handle recorded for a peer was reported by a gpg process that ran", "statement": "When an account has a key handle for a peer, one of the calls made so far started, for this account and with the program and home directory the account was configured with then, a gpg process that succeeded in importing a key and named this handle in its messages (a short id is completed from a listing made by the next process); the key recorded with the handle is the imported one, or what a later process of the same call exported under the handle.", "quantifier": "all histories of calls, all accounts and peers, every behaviour of gpg", "why_tests_cant": "It is about every history and everything gpg may say; tests look at the handle after one import of a known key.", "anchors": ["muacrypt/account.py:Account.process_incoming", "muacrypt/account.py:Account.import_keydata_as_autocrypt", "muacrypt/states.py:PeerState.update_from_msg", "muacrypt/states.py:PeerState.update_from_msg_gossip", "muacrypt/bingpg.py:BinGPG.import_keydata", "muacrypt/bingpg.py:BinGPG._find_keyhandle"]}
{"id": "C98", "title": "A call whose process is killed loses nothing, and can be repeated", "statement": "If the process is killed between two operations of any call that deletes nothing, every chain keeps what was recorded, and what is new is the oldest part of what the complete call would have recorded; own keys stay, timestamps of peers lie between those before and after the complete call, other accounts are not touched; a new account is complete or does not exist; a mail is recorded as if the call had been completed or not at all; settings are changed and accounts are deleted completely or not at all; and making the call again leads to the records that the uninterrupted call leads to.", "quantifier": "all reachable states (also after earlier kills), all calls, all moments, every behaviour of gpg", "why_tests_cant": "A test would have to kill the process at each of its operations in each state; the existing tests never kill it.", "anchors": ["muacrypt/account.py:Account.process_incoming", "muacrypt/account.py:Account.process_autocrypt_header", "muacrypt/account.py:Account.create", "muacrypt/account.py:AccountManager.add_account", "muacrypt/states.py:PeerState.has_message"]}
