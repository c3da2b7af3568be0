#!/usr/bin/env python3
"""Write properties.jsonl from the table below (one entry per property)."""
import json, os
P = []
def p(id, title, statement, quantifier, why, anchors):
    P.append(dict(id=id, title=title, statement=statement, quantifier=quantifier,
                  why_tests_cant=why, anchors=anchors))

ST, CH, MI, AC, RE, GP, BO, CM = ["muacrypt/%s.py" % x for x in
    "states chainstore mime account recommendation bingpg bot cmdline".split()]

p("C01", "Stored state behaves like per-name append-only logs",
  "For every sequence of API calls on a state directory, every call returns what it would return if each named log "
  "(own settings of an account, one per peer of an account, out-of-band verifications, manager settings) were a plain in-memory list to which entries "
  "are only ever appended: reading a log yields exactly the appended entries, newest first, none lost, duplicated or reordered, "
  "and appending to one log changes no other log. The on-disk representation (content-addressed block files plus one heads file) is unobservable.",
  "all finite histories of API calls, all messages, all clock readings, all gpg behaviours; provided no two different blocks written in that history have the same SHA-256",
  "Tests append a handful of entries; the claim is about arbitrary histories, shared blocks, and block-link traversal of any length.",
  [CH+":BlockService.store_block", CH+":BlockService.get_block", CH+":HeadTracker", CH+":ChainStates.new_head_block", CH+":Chain.iter_entries", CH+":Chain.append_entry", ST+":States"])
p("C02", "Recorded history is immutable",
  "Once an entry has been recorded in the state directory, no API call except destroy-all/remove changes or deletes the recorded bytes: "
  "account deletion and every other call leaves each stored block file byte-for-byte as it was.",
  "all histories, all API calls, all blocks present at any point of the history (no SHA-256 collision in the history)",
  "A test can compare a few files after a few calls, not all files over all histories.",
  [CH+":BlockService.store_block", CH+":HeadTracker.remove_if", AC+":AccountManager.remove"])
p("C03", "A crash before the heads file is reopened loses nothing",
  "If the process dies at any moment of a state-changing append before the heads file has been opened for writing (including in the middle of writing the new block file), "
  "then after restart every log reads exactly as before the append.",
  "all well-formed store states, all entries, all crash points up to the opening of the heads file, all torn prefixes of the block file",
  "Crash points inside a system call sequence cannot be enumerated by unit tests.",
  [CH+":ChainStates.new_head_block", CH+":BlockService.store_block", CH+":HeadTracker.upsert"])
p("C04", "A crash at any point of an append leaves the old or the new state",
  "If the process dies at any moment while an entry is being appended, then after restart every log reads either as before or as after the append.",
  "all store states, all entries, all crash points including in the middle of rewriting the heads file",
  "Crash points and torn writes are not reachable from unit tests.",
  [CH+":HeadTracker.upsert", CH+":HeadTracker.remove_if", CH+":HeadTracker._getheads"])
p("C05", "Concurrent processes do not lose each other's updates",
  "If two processes concurrently append entries to the state directory, then after both finish both entries are present, whatever the interleaving of their file operations; "
  "and at every moment every log that can be read is a chain of entries somebody appended.",
  "all interleavings of the file operations of two (or more) appending processes",
  "Schedules are not controllable in unit tests.",
  [CH+":HeadTracker.upsert", CH+":ChainStates.new_head_block"])
p("C06", "Tampering with a recorded entry is detected",
  "Entries are linked by cryptographic hashes; reading a log whose stored block file was altered is never silently accepted as if it were the recorded entry.",
  "all stores, all altered block contents",
  "Would need every possible alteration.",
  [CH+":BlockService.get_block", ST+":module docstring"])
p("C07", "Accounts and peers never share a log",
  "The state of (account, peer address) pairs is kept apart: for any two different (account, address) pairs with valid account names the peer states are different logs, and no peer log is an own-settings log, an out-of-band log or the manager log.",
  "all valid (alphanumeric) account names and all address strings, including ones containing ':' ",
  "String-encoding ambiguity only shows on adversarial names.",
  [ST+":States.get_peerstate", ST+":States.get_ownstate", ST+":States.get_oobstate", AC+":Account.__init__"])

p("C08", "The key in use is the one from the most recently dated Autocrypt message, whatever the arrival order",
  "After any sequence of mails processed by an account, the direct key, its prefer-encrypt setting and the Autocrypt timestamp reported for a peer are those of a processed mail from that peer that carried a key and has the maximal effective date among all of them; "
  "if the mails with maximal date agree, the reported key is exactly theirs. If no mail with a key was processed, there is no direct key and the timestamp is 0.",
  "all finite histories of API calls in any order and any dates, all peers",
  "Unit tests try two or three arrival orders; the claim is about all permutations and all histories.",
  [ST+":PeerState.update_from_msg", ST+":PeerState._latest_ac_entry", ST+":PeerState.autocrypt_timestamp", AC+":Account.process_autocrypt_header"])
p("C09", "The Autocrypt timestamp of a peer never goes backwards",
  "No API call other than deleting the account or all state ever decreases the autocrypt_timestamp reported for a peer, even if the call raises.",
  "all reachable states, all API calls, all messages, all clocks",
  "Monotonicity over all histories.",
  [ST+":PeerState.update_from_msg", ST+":PeerState.autocrypt_timestamp"])
p("C10", "last_seen is the date of the most recent mail seen",
  "After any sequence of mails from a peer, last_seen is the maximum of their effective dates; in particular it never decreases and is never smaller than the Autocrypt timestamp.",
  "all histories of processed mails of a peer",
  "Order-dependence only shows on particular arrival orders.",
  [ST+":PeerState.last_seen", ST+":PeerState.update_from_msg", ST+":PeerState._latest_msg_entry"])
p("C11", "Gossip never overrides a direct key",
  "Processing gossip for a peer whose direct key is usable changes neither the key used for encryption nor its prefer-encrypt setting, direct-key flag, Autocrypt timestamp or last_seen.",
  "all reachable states, all gossip updates",
  "All interleavings of direct and gossip updates.",
  [ST+":PeerState.update_from_msg_gossip", ST+":PeerState.entry_for_encryption"])
p("C12", "Older gossip does not replace newer gossip",
  "For a peer known only from gossip, the key used for encryption is that of the most recently dated gossip message, whatever the arrival order.",
  "all histories of gossip updates of a peer",
  "Order-dependence.",
  [ST+":PeerState.update_from_msg_gossip", ST+":PeerState.latest_gossip_entry"])
p("C13", "Processing the same mail again changes nothing",
  "Re-processing a mail that has just been processed, under an unchanged effective date, leaves all recorded state unchanged (no duplicate entries).",
  "all reachable states, all messages",
  "All states and messages, including failed key imports.",
  [ST+":PeerState.update_from_msg", ST+":PeerState.update_from_msg_gossip", AC+":Account.process_incoming"])
p("C14", "Processing a mail touches only the peers it concerns",
  "process_incoming on an account changes at most the peer state of the From address and of To/Cc recipients of an encrypted mail, in that account only: other peers, other accounts, all own settings, all out-of-band verifications are unchanged, whether the call succeeds or raises.",
  "all states, messages, gpg behaviours",
  "Frame conditions quantify over everything else.",
  [AC+":Account.process_incoming", AC+":Account.process_gossip_headers"])
p("C15", "Unencrypted mail cannot plant gossip keys",
  "Processing a mail that is not an encrypted mail (or with decryption disabled) changes no peer but the sender, and adds no gossip key for anybody.",
  "all states, all messages",
  "All messages.",
  [AC+":Account.process_incoming"])
p("C16", "Dates from the future are never recorded",
  "Every date recorded for or reported about a peer is at most the clock reading taken while processing the mail it came from, so a mail with a future Date cannot block later key updates.",
  "all histories with a non-decreasing clock, all Date headers",
  "All Date headers and clocks.",
  [AC+":effective_date", AC+":parse_date_to_float", AC+":Account.process_incoming"])
p("C17", "A key is accepted only from one valid header whose address is the sender's",
  "Processing a mail changes the direct key, its prefer-encrypt setting or the Autocrypt timestamp of a peer only if the peer is the From address, the mail is not a multipart/report, the From field does not contain several addresses and exactly one Autocrypt header is valid and names that same address; and then the new key is the one in that header.",
  "all states, all messages with any number of From and Autocrypt headers",
  "All header combinations.",
  [MI+":parse_one_ac_header_from_msg", AC+":Account.process_autocrypt_header"])
p("C18", "A mail is skipped as known only if it was processed before",
  "With duplicate detection on, process_incoming skips a mail only if a mail with the same Message-Id from the same peer has been recorded by that account before; a mail never processed before is not skipped.",
  "all reachable states, all messages, with and without Message-Id",
  "All histories.",
  [AC+":Account.process_incoming", ST+":PeerState.has_message"])
p("C19", "Mail without a valid Autocrypt header never changes the key",
  "Processing a mail without a valid Autocrypt header changes neither key, prefer-encrypt setting, direct-key flag nor Autocrypt timestamp of the sender; it can only raise last_seen. (Gossip inside the same encrypted mail that names the sender itself counts, like any gossip, for a sender without a direct key.)",
  "all reachable states, all messages without a valid header",
  "All states.",
  [ST+":PeerState.update_from_msg", AC+":Account.process_autocrypt_header"])

p("C20", "Recommendation for one recipient follows the Autocrypt rules",
  "For a single recipient: 'disable' iff no key is known; otherwise 'encrypt' if replying to an encrypted mail; otherwise 'discourage' if only a gossip key is known or the last mail seen is more than 35 days newer than the last Autocrypt mail; otherwise 'encrypt' iff both sides prefer mutual and the last mail seen carried Autocrypt; otherwise 'available'.",
  "all reachable peer states, both own preferences, both reply flags",
  "Boundary (exactly 35 days) and all states.",
  [RE+":PeerRecommendation"])
p("C21", "Recommendation for several recipients is the most cautious one",
  "The recommendation for a non-empty set of recipients is the most cautious (disable < discourage < available < encrypt) of the individual ones; adding further recipients never makes it less cautious; it is 'disable' iff some recipient has no key; it does not depend on the order or repetition of recipients.",
  "all states, all recipient lists of any length",
  "All recipient lists.",
  [RE+":Recommendation.ui_recommendation", AC+":Account.get_recommendation"])
p("C22", "Asking for a recommendation always gives an answer and changes nothing",
  "For an existing account get_recommendation/ui_recommendation never raises, returns one of the four recommendations and changes no state.",
  "all reachable states, all recipient lists",
  "Absence of a crash in all reachable states (the code dereferences a possibly missing entry).",
  [RE+":PeerRecommendation.ui_recommendation", RE+":Recommendation.ui_recommendation"])
p("C23", "Without a reply, mail is encrypted automatically only if everybody wants it",
  "If no reply to an encrypted mail is involved and there is at least one recipient, 'encrypt' is recommended only if the account prefers mutual and for every recipient the reported key is a direct key with mutual preference.",
  "all reachable states and recipient lists",
  "All states.",
  [RE+":PeerRecommendation.ui_recommendation"])

p("C24", "Generated Autocrypt headers parse back to what was put in",
  "For every routable lower-case address without ';', every non-empty key and both preferences, parsing the header value made for them yields exactly that address, key and preference, with no error and no extra attributes; with any other preference string it yields an error.",
  "all keys of any length, all such addresses",
  "Base64 padding, line folding and splitting at every length.",
  [MI+":make_ac_header_value", MI+":indented_split", MI+":parse_ac_headervalue", MI+":decode_keydata"])
p("C25", "Parsing a header value never raises",
  "parse_ac_headervalue returns a result object (possibly with error set) for every header value whatsoever.",
  "all strings",
  "All strings.",
  [MI+":parse_ac_headervalue"])
p("C26", "Unknown critical attributes reject a header; underscore attributes do not matter",
  "A header value with an attribute other than addr, prefer-encrypt, keydata not starting with '_' is rejected; adding or removing attributes starting with '_' changes nothing but the extra attributes; the order of differently named attributes does not matter.",
  "all header values (attribute lists of any length)",
  "All attribute lists.",
  [MI+":parse_ac_headervalue"])
p("C27", "Header lines stay short and carry the whole key",
  "Every line of the folded key in a generated header is indented by two blanks and has at most 80 characters, and removing the folding yields the base64 of the key again.",
  "all keys of any length",
  "All lengths.",
  [MI+":indented_split", MI+":make_ac_header_value"])
p("C28", "Base64 key transport is lossless",
  "Decoding the base64 form of any byte string, even with white space inserted anywhere, gives the byte string back.",
  "all byte strings, all insertions of white space",
  "All byte strings.",
  [MI+":decode_keydata", MI+":make_ac_header_value"])

p("C29", "A mail that must be encrypted is never sent in clear",
  "If an outgoing mail asks for encryption (ENCRYPT: yes), process_outgoing either returns a PGP/MIME encrypted mail or raises; if it encrypts, the original body appears in the result only as input to gpg encryption.",
  "all states, all messages, all gpg behaviours",
  "All states and messages.",
  [AC+":Account.process_outgoing", AC+":Account.encrypt_mime"])
p("C30", "A mail that must not be encrypted is not",
  "With ENCRYPT: no, or with no/opportunistic ENCRYPT header and a recommendation other than 'encrypt', process_outgoing returns the mail unencrypted with its body unchanged.",
  "all states, all messages",
  "All states and messages.",
  [AC+":Account.process_outgoing"])
p("C31", "The ENCRYPT control header never leaves the machine",
  "The mail returned by process_outgoing has no ENCRYPT header, in any capitalization, however many the input had.",
  "all states, all messages",
  "All messages.",
  [AC+":Account.process_outgoing", MI+":transfer_non_content_headers"])
p("C32", "Outgoing mail carries exactly the right Autocrypt header",
  "If the outgoing mail already has Autocrypt headers they are kept as they are; otherwise exactly one is added, which names the sender address, the account's own public key and the account's preference.",
  "all states, all messages",
  "All messages.",
  [AC+":Account.process_outgoing", AC+":Account.make_ac_header"])
p("C33", "Encrypted mail can be read by every recipient and the sender",
  "When process_outgoing encrypts, the keys passed to gpg contain, for every To and Cc address and for the sender, the key currently in use for that address (the account's own key for own addresses without peer state), and nothing else; the mail is signed with the account's key.",
  "all states, all messages, all recipient lists",
  "All recipient lists.",
  [AC+":Account.encrypt_mime", AC+":Account.process_outgoing", GP+":BinGPG.encrypt"])
p("C34", "Encryption keeps headers outside and content inside",
  "Encrypting a mail keeps all its non-content headers (in order) on the encrypted mail, puts only content headers plus gossip headers on the protected part, and decrypting restores payload and headers.",
  "all messages and header lists",
  "All header lists.",
  [MI+":make_content_message_from_email", MI+":transfer_non_content_headers", AC+":Account.encrypt_mime", AC+":Account.decrypt_mime"])
p("C35", "Gossip headers tell the truth",
  "The protected part of an encrypted mail contains one gossip header for every recipient with a known peer key, in order, and parsing it yields that recipient's address and the key in use.",
  "all states and recipient lists",
  "All recipient lists and keys.",
  [AC+":Account.encrypt_mime"])
p("C36", "Only gossip inside the encrypted part is believed",
  "Gossip keys are taken only from headers of the encrypted part of a mail, never from its cleartext headers.",
  "all states, all encrypted messages",
  "Adversarial header placement.",
  [AC+":Account.decrypt_mime", MI+":transfer_non_content_headers", AC+":Account.process_gossip_headers"])
p("C37", "Gossip reaches every recipient regardless of capitalization",
  "A valid gossip header for a To/Cc recipient is processed whatever the capitalization of the address in the To/Cc header.",
  "all encrypted messages and address capitalizations",
  "All capitalizations.",
  [AC+":Account.process_gossip_headers", MI+":get_target_emailadr"])
p("C38", "A malformed gossip header does no harm",
  "A gossip header whose key cannot be parsed or imported is ignored; processing the rest of the mail is unaffected and does not raise.",
  "all encrypted messages, all gossip headers, all gpg import failures",
  "All malformed headers.",
  [AC+":Account.process_gossip_headers", AC+":Account._import_key", ST+":MsgGossipEntry"])

p("C39", "The own key of an account never changes",
  "Once an account exists, no API call except deleting that account or all state changes its own key handle; in particular adding it again fails with AccountExists and changes nothing.",
  "all reachable states, all API calls",
  "All histories.",
  [AC+":AccountManager.add_account", AC+":Account.create", ST+":OwnState.keyhandle"])
p("C40", "Deleting an account removes all its state and nothing else",
  "After del_account the account is not listed, has no peers and no settings, and creating it again starts from scratch (also for out-of-band verifications); all other accounts, also ones with similar names, are unchanged.",
  "all reachable states, all account names",
  "All name pairs and states.",
  [ST+":States.remove_account", AC+":AccountManager.del_account"])
p("C41", "A failed add_account leaves the manager usable",
  "If add_account raises, then every other account can still be listed, found by e-mail address and used as before.",
  "all reachable states, all argument combinations, all gpg failures",
  "All failure points.",
  [AC+":Account.create", AC+":AccountManager.add_account", AC+":AccountManager.get_account_from_emailadr"])
p("C42", "mod_account changes exactly what was asked",
  "mod_account sets exactly the specified settings (address regex, gpg binary, preference, key), leaves all others and all other accounts unchanged, reports whether anything changed, and an invalid preference raises and changes nothing.",
  "all reachable states, all argument combinations",
  "All combinations.",
  [AC+":AccountManager.mod_account", AC+":Account.modify", ST+":OwnState.change_config"])
p("C43", "Address lookup finds the first matching account in name order",
  "get_account_from_emailadr returns the alphabetically first account whose regex matches the address, and none (or AccountNotFound) if no account matches; an incoming mail is routed by its To/Cc addresses in order before Delivered-To.",
  "all states in which every listed account is complete, all addresses, all regexes",
  "All account sets.",
  [AC+":AccountManager.get_account_from_emailadr", AC+":AccountManager.get_matching_account_for_incoming_message"])
p("C44", "An account with its own keyring never touches another keyring",
  "Every gpg invocation made by any API call for an account in 'own' mode names that account's own gpg home directory; the system keyring and the keyrings of other accounts are unchanged by it.",
  "all states, all API calls, all gpg behaviours",
  "All code paths.",
  [GP+":BinGPG._gpg_outerr", GP+":BinGPG._homedirflags", AC+":Account.bingpg", ST+":States.get_own_gpghome"])
p("C45", "Account names cannot escape the state directory",
  "Only non-empty alphanumeric account names are accepted by any API call; for any other name the call raises and changes nothing, so the gpg home of an account is always a direct child of the state directory's gpg folder, different for different accounts.",
  "all strings as account names",
  "All strings.",
  [AC+":Account.__init__", ST+":States.get_own_gpghome"])
p("C46", "destroy-all resets everything",
  "After remove() no account, peer, setting or verification is visible and accounts can be created again as in a fresh directory.",
  "all reachable states",
  "All states.",
  [AC+":AccountManager.remove"])
p("C47", "Unknown accounts are reported, not created",
  "Every call naming an account that does not exist raises AccountNotFound and creates no account, peer or key.",
  "all reachable states, all names",
  "All states.",
  [AC+":AccountManager.get_account"])
p("C48", "The version of the state directory is set once",
  "The manager's version is set on first use and never changes until destroy-all; initializing twice never happens through the API.",
  "all histories",
  "All histories.",
  [AC+":AccountManager._ensure_init", ST+":AccountManagerState.set_version"])
p("C49", "Importing a key by hand associates it with exactly the right addresses",
  "import_keydata_as_autocrypt with an address records the imported key, with the given preference, as direct key of exactly that peer with the current time; without address, of exactly the peers named in the key's user ids.",
  "all states, all keys",
  "All keys and uid lists.",
  [AC+":Account.import_keydata_as_autocrypt"])
p("C50", "The bot answers only mail addressed to it and never itself",
  "bot-reply produces a reply only if the bot's address occurs in the To header; the reply goes to the sender and to the other To/Cc addresses and never to the bot's own address, in any capitalization.",
  "all messages, all states",
  "All messages.",
  [BO+":bot_reply"])
p("C51", "The bot's reply is encrypted whenever recommended, and it always answers",
  "If the recommendation for the sender is 'encrypt' the reply is a PGP/MIME encrypted mail or no reply is made at all; a mail addressed to the bot from a sender with a known key is always answered.",
  "all messages, all states",
  "All messages.",
  [BO+":bot_reply", AC+":Account.encrypt_mime"])
p("C52", "Scanning a mail folder processes every mail",
  "scandir-incoming processes every recent mail in the directory; a mail that cannot be processed does not prevent the others from being processed.",
  "all directories, all orders of listing, all messages",
  "All message sets and orders.",
  [CM+":scandir_incoming"])
p("C53", "process-incoming reports truthfully whether Autocrypt information was found",
  "The process-incoming command says 'found' iff the mail carried a valid Autocrypt header that was recorded, and peerstate's last_ac_msg names the last mail that carried one.",
  "all messages, all states",
  "All states.",
  [CM+":process_incoming", CM+":peerstate"])
p("C54", "Keys are matched by id suffix",
  "A key matches an id iff one of the two is, ignoring case, a suffix of the other and the given id is not empty (or both are empty); matching is symmetric.",
  "all strings",
  "All strings.",
  [GP+":KeyInfo.match"])
p("C55", "Mail content and keys are passed to gpg only on standard input",
  "No gpg command line built by muacrypt contains message content or key material; encryption passes each recipient key exactly once per recipient, in order, after -r.",
  "all inputs",
  "All inputs.",
  [GP+":BinGPG.encrypt", GP+":BinGPG.import_keydata", GP+":BinGPG.decrypt"])
p("C56", "Message dates are compared as instants",
  "If one mail was sent (according to its Date header including time zone) before another, its effective date is not later.",
  "all pairs of Date headers with time zones",
  "All zone combinations.",
  [AC+":parse_date_to_float"])
p("C57", "Truncated header display is bounded",
  "trunc_string returns the string unchanged if short enough, and otherwise its beginning plus the exact number of dropped characters, in at most the maximal length.",
  "all strings and lengths",
  "All lengths.",
  ["muacrypt/cmdline_utils.py:trunc_string"])
p("C58", "Log sections never leak indentation",
  "However sections are nested and whatever raises inside them, the bot log's indentation after a section is what it was before.",
  "all nestings of sections, all exceptions",
  "All nestings.",
  [BO+":SimpleLog"])
p("C59", "Forwarded (resent) mail is passed through untouched",
  "process-outgoing with a Resent-From header returns the mail unmodified if an account matches the resent address and raises otherwise.",
  "all messages, all states",
  "All messages.",
  [CM+":_process_outgoing"])
p("C60", "The mime structure rendering has one line per part",
  "The structure rendering of a message with at least one part in every multipart has exactly one line per mime part, each starting with the tree prefix.",
  "all mime trees of any depth",
  "All trees.",
  [MI+":render_mime_structure"])

p("C61", "Each command does its call and prints its result",
  "Every muacrypt command leaves the state its API call leaves, fails when that call fails, and prints exactly the result: the account found, the recommendation, the header, the key, the rewritten mail, the peer state, the settings after add/mod, the accounts left after del.",
  "all commands, all arguments, all standard input, all reachable states",
  "The command line is tested with a few fixed accounts and mails; the claim is about all arguments and all states.",
  [CM+":add_account", CM+":mod_account", CM+":del_account", CM+":find_account", CM+":make_header", CM+":recommend", CM+":peerstate", CM+":process_incoming", CM+":process_outgoing", CM+":import_public_key", CM+":export_public_key", CM+":destroy_all"])
p("C62", "The sendmail command hands over exactly the processed mail",
  "muacrypt sendmail starts the sendmail program once, with exactly the arguments given, feeds it the mail as rewritten by process_outgoing in UTF-8, and exits with its exit code; a mail that says ENCRYPT: yes is never handed over in the clear, and no ENCRYPT header leaves the machine.",
  "all mails, all arguments, all states, all exit codes",
  "Tests use a fake sendmail with one mail; a mail leaking in the clear may depend on any header combination.",
  [CM+":sendmail", CM+":_process_outgoing", GP+":find_executable"])
p("C63", "The status command tells what is stored",
  "muacrypt status changes nothing and shows, for every account, its settings, key and user ids as stored, and with --verbose every peer with its key, the time it was last seen and whether its last mail had an Autocrypt header.",
  "all reachable states, all accounts, all peers",
  "Output depends on every stored setting and peer.",
  [CM+":status", CM+":_status_account"])

p("C64", "Two accounts exchange keys by ordinary mail",
  "If a mail goes out through process_outgoing and transport leaves From, Autocrypt, Date and Content-Type alone, then processing it at the receiver makes the receiver know the sender's key as stated, with the sender's preference, provided it is dated after what the receiver knew and gpg can import the key; from then on the recommendation for the sender is encrypt if both prefer mutual and available otherwise, and encrypted mail to the sender is encrypted to that key.",
  "all reachable states of both sides, all mails, all ways of delivery that keep the four fields",
  "The guarantee spans two installations and several calls; tests exercise single fixed exchanges.",
  [AC+":Account.process_outgoing", AC+":Account.process_incoming", MI+":make_ac_header_value", MI+":parse_one_ac_header_from_msg"])

p("C65", "gpg is asked for nothing but what a call needs",
  "Every gpg command started (apart from gpg --version) is one of nine kinds, and each API call and command starts only those of its kinds: only adding an account and export-secret-key export a secret key, only adding an account generates one, only import_public_key deletes a public key, recommendations, listings and account changes start none of them.",
  "all calls, all arguments, all states, all answers of gpg",
  "Tests do not see which gpg commands run; an unwanted one may depend on any earlier answer of gpg.",
  [GP+":BinGPG", AC+":Account", CM+":status"])
p("C66", "Recommended keys are the keys encrypted to",
  "target_keyhandles lists each recipient, under its normalized address, exactly once with the key known for it, and encrypt_mime uses exactly these keys; only for an own address without a known key it uses the own key.",
  "all reachable states, all lists of addresses in any spelling",
  "Two separate paths through the code compute the keys; they must agree in all states.",
  ["muacrypt/recommendation.py:Recommendation.target_keyhandles", AC+":Account.encrypt_mime"])

p("C67", "Accounts do not depend on each other",
  "The result of a call that names an account, and everything stored for that account afterwards, is the same in any two states with the same logs, key ring and clock for this account, whatever other accounts there are and whatever they contain; so a call on one account makes no difference for a call on another with its own key ring, except that time passes.",
  "all pairs of reachable states, all calls that name an account, all sessions of such calls",
  "Compares pairs of executions; no test can vary everything that is not supposed to matter.",
  [AC+":Account", "muacrypt/states.py:States", "muacrypt/states.py:OwnState", "muacrypt/states.py:PeerState"])

p("C68", "Outgoing mail may pass process_outgoing twice",
  "A mail that process_outgoing has rewritten is left alone when it is processed again: same mail, no header added, gpg not run, nothing stored; encrypted mail with an Autocrypt header is left alone by every account at every time.",
  "all reachable states, all accounts, all mails",
  "Pipelines that call process-outgoing and then sendmail depend on this for every mail; tests process a mail once.",
  [AC+":Account.process_outgoing", CM+":sendmail", CM+":process_outgoing"])
p("C69", "Decryption reports the keys that gpg names",
  "Decrypting a mail starts gpg once, on the encrypted part of the mail; what gpg puts out is the content of the new mail, and the keys returned are exactly those gpg says the mail is encrypted to, in order, each with its own user id; whenever gpg decrypts, the call returns.",
  "all reachable states, all mails, everything gpg may write to stderr",
  "The text of gpg depends on its version, on the mail and on the key ring; tests see one text.",
  [GP+":BinGPG.decrypt", AC+":Account.decrypt_mime"])

p("C70", "The program started is the one chosen for the account",
  "Every gpg command of a call is run with the file found for the program name of its account (the name given in the call, or else the one in the settings): the name itself if it is a file name, otherwise the first file of that name in the directories of PATH. Over any history, only files found for names that were given for an account are started.",
  "all histories of calls, all values of PATH, all file systems",
  "Tests run with one gpg in one PATH, so a wrong choice among several programs or directories is not seen.",
  [GP+":find_executable", GP+":BinGPG.__init__", AC+":Account.bingpg"])
p("C71", "The options for keys without passphrase go with the version of gpg",
  "From the version that gpg tells in its first line of --version: from 2.1 on every command that needs a secret key gets --pinentry-mode=loopback, before 2.1 none does; versions are compared number by number, not as texts. Every version is accepted.",
  "all reachable states, all calls, all version numbers with any number of parts",
  "Tests run with the version installed; two-digit parts and missing parts never occur.",
  [GP+":BinGPG.gpg_version", GP+":BinGPG.isgpg21", GP+":BinGPG._nopassphrase"])

p("C72", "An account made for a given key gets a key with that name",
  "add_account with a key handle asks the gpg of the account to list the secret keys with that handle and takes the first key listed whose id ends with the handle, or one of whose user ids is the handle. If there is none, no account is made.",
  "all reachable states, names, modes, programs and handles, whatever gpg prints",
  "Tests use one key per ring; the choice among several keys, and user ids that contain the handle, never occur.",
  [GP+":BinGPG.get_secret_keyhandle", GP+":BinGPG._parse_list", GP+":KeyInfo.match", AC+":Account.create"])
p("C73", "Key handles are the ones that gpg reported",
  "The handle of a generated key is the first key named in what gpg wrote when it generated the key for a random address with the fixed settings; the handle of a peer is the one gpg named when it imported the recorded key. A short id is completed from a listing made in the same ring.",
  "all reachable states, all calls, whatever gpg prints",
  "What gpg prints differs between versions; tests see one. That no handle comes from anywhere else is a statement about all histories.",
  [GP+":BinGPG.gen_secret_key", GP+":BinGPG._find_keyhandle", GP+":BinGPG.import_keydata", AC+":Account._import_key"])

p("C74", "No failure of gpg is overlooked",
  "If a call returns normally, every gpg process it started ended with exit code 0, wrote readable messages, and, for exports, no message at all. Key rings change only by the gpg processes recorded.",
  "all states, all calls, whatever gpg does at each start",
  "gpg hardly ever fails in tests; each place where a result is ignored would have to be met by a failure at the right moment.",
  [GP+":BinGPG._gpg_out", GP+":BinGPG._gpg_outerr", GP+":BinGPG.get_public_keydata", AC+":Account._import_key", GP+":BinGPG.import_keydata"])
p("C75", "Capitalization makes no difference",
  "Incoming mails that differ only in the capitalization of header field names, also in their parts, are processed in the same way, with the same answer and the same state. Addresses that differ only in capitalization are the same peer: for what is known, recommended, imported, encrypted and verified.",
  "all states, all mails with any nesting of parts, all addresses of ASCII characters",
  "Tests write header names in one way, and a few addresses.",
  ["muacrypt/mime.py:parse_email_addr", "muacrypt/mime.py:parse_one_ac_header_from_msg", "muacrypt/mime.py:is_encrypted", AC+":Account.process_incoming", AC+":Account.get_recommendation"])

p("C76", "Plugins decide about the encrypted content and nothing else",
  "Whatever registered plugins do with the arguments of the hooks: incoming mail is recorded in the same way, and answered in the same way but for the gossip in the answer. What is encrypted is what they left of the mail and its gossip, encrypted to the same keys, under the same headers outside; they are told the sender, its key and the known keys of the recipients. Mail is encrypted in the same cases, and mail sent in the clear is not shown to them. If one raises, gpg is given nothing and no mail is given out instead.",
  "all lists of plugins, all mails, all states reached by calls with any plugins",
  "Tests register one or two plugins and look at a few mails.",
  ["muacrypt/hookspec.py:process_incoming_gossip", "muacrypt/hookspec.py:process_before_encryption", AC+":Account.process_incoming", AC+":Account.encrypt_mime", AC+":Account.process_outgoing"])

p("C77", "Reading a log finds the newest entry, also when older files are damaged",
  "Reading with an early stop finds the newest entry that is looked for among all that were appended, for every kind of lookup. It depends only on the block files up to that entry: older ones may be missing or hold anything. A block file that cannot be read is an error for those who look that far, and a missing one is noticed as well. The files of a log are linked, distinct, as many as its entries; its length, its files, its oldest block and its dump are those of the entries appended.",
  "all histories of calls, all logs, all lookups, any change to older block files",
  "Tests read intact stores only; no test removes or damages a block file.",
  [CH+":Block.__iter__", CH+":Block.contains_cid", CH+":Block.get_last_parent", CH+":ChainStates.iter_blocks", CH+":ChainStates.dump", CH+":Chain.__len__", CH+":Chain.latest_entry_of", ST+":PeerState.get_message_entry", ST+":OOBState.get_verification"])

p("C78", "The other methods of the gpg wrapper: packets, signatures, the agent, versions, error texts",
  "The packets of a key are those that gpg wrote for it, in order, with their values and details; no packet, or text before the first one, is an error. A signature is what gpg puts out for exactly this data and key; it is only said to be good if gpg succeeded for this data and signature, by the key gpg named. The agent of the same home directory is stopped from version 2.0 on; gpg-agent.conf is written from 2.0 on and before 2.1.12; EdDSA is used if the version lists it. The text of a failure has the command, the exit code and everything gpg wrote.",
  "all outputs of gpg, all data, keys and signatures, all version texts, all states",
  "Tests run one installed version of gpg with a few keys; other versions and odd outputs never occur.",
  [GP+":BinGPG.list_packets", GP+":BinGPG.sign", GP+":BinGPG.verify", GP+":BinGPG.killagent", GP+":BinGPG.supports_eddsa", GP+":BinGPG.isgpg2", GP+":InvocationFailure.__str__"])

p("C79", "Mails are read as their text says",
  "Which mails count as encrypted, from whom, when written, which id, to whom, of which content type, with which fields, follows from the header fields and parts as written: a mail is encrypted if and only if its type is multipart/encrypted with exactly two parts of the types application/pgp-encrypted and application/octet-stream. The opened mail is the content that gpg put out for the second part, with the outer fields that do not describe the body. Mail that must be encrypted leaves in this form. The string operations used on the way are those of the usual definitions, UTF-8 that of RFC 3629.",
  "all mails, all texts, all bytes",
  "Tests use a handful of mails; a mail that wrongly counts as encrypted would be sent in the clear.",
  [MI+":is_encrypted", MI+":get_target_emailadr", MI+":parse_email_addr", MI+":transfer_non_content_headers", AC+":parse_date_to_float", AC+":Account.process_outgoing", GP+":BinGPG.decrypt"])
p("C80", "The key of a peer is that of one entry: direct before gossip",
  "Key, key handle and preference reported for a peer are those of one entry: of the newest entry with a key received directly, if gpg could import that key, otherwise of the newest gossip entry. A key received by gossip states no preference. A peer has a direct key if and only if the first case holds.",
  "all reachable states, all accounts and peers",
  "Tests look at peers with one kind of key; mixing up the entries shows only when both exist.",
  [ST+":PeerState.entry_for_encryption", ST+":PeerState.has_direct_key", ST+":PeerState.public_keyhandle", ST+":PeerState.public_keydata", ST+":PeerState.prefer_encrypt"])

p("C81", "What is listed is what is there, and the newest verification counts",
  "Account names are listed in order and once each; an account appears in the list only by a call that creates it, stays until a call deletes it, and is gone after a successful deletion. The peers of an account are listed in order and once each; a peer is listed if and only if something was received from or about it. The verification reported for an address is the newest one that was recorded successfully for exactly this address and account since everything was last deleted, whatever else was done in between; the number of peers can be asked for.",
  "all sessions, all reachable states, all calls, accounts and addresses",
  "Tests list a few accounts and record one verification; no test deletes and creates in all orders, and the method that counts peers is never called.",
  [ST+":States.get_account_names", ST+":States.get_peername_list", ST+":States.get_num_peers", ST+":OOBState.get_verification", ST+":OOBState.append_self_verification", ST+":OOBState.append_peer_verification"])

p("C82", "The bot's report is true and its reply goes to those addressed",
  "The text of the bot's reply is a report of what happened: the Delivered-To address that was used; for each of eight headers one line with the value, shortened, or that it was not found; the structure of the mail; the complaint about the Autocrypt header or else what is now recorded about the sender; for an encrypted mail the keys it was encrypted to; the bot's own key; and as last line the recommendation for the reply, which is encrypted exactly if that is 'encrypt'. Without --smtp the reply is printed and nothing is sent; with it the reply is sent by that server, from the bot's address, to the sender and to everybody addressed except the bot, and nothing but a notice is printed; if there is no reply nothing is printed or sent. No text in a mail can imitate a line of the report.",
  "all reachable states, all mails, all fallback addresses and values of --smtp, all behaviours of gpg and of the server",
  "Tests look for a few words in the replies to a few mails; none reads the whole report, uses --smtp, or has unusual line ends in headers.",
  [BO+":bot_reply", BO+":send_reply", BO+":SimpleLog"])

p("C83", "Directories and temporary files are made with care",
  "Creating the wrapper for a gpg home directory, or opening a state directory, alters nothing that is there, and at any time has added at most the directory, missing directories above it, and for the wrapper gpg-agent.conf. A home directory that was missing is accessible to its owner only; gpg-agent.conf is written, with its one line, exactly if it is missing and the version of gpg is at least 2.0 and before 2.1.12; doing it again changes nothing. For the keyring of the system, or if gpg is not found, nothing is touched. The temporary file for a command is new, accessible to its owner only, has exactly the content when the command starts, and is removed whatever happens; the report of a failed key generation quotes it exactly. All this also holds when a process died at any time before.",
  "all directory trees, permissions, umasks and amounts of free space, all versions of gpg, death at any operation or in the middle of a write, all commands run with a temporary file",
  "Tests make directories on one machine in an empty temporary directory, with room on the disk, and never kill the process in between; permissions are not looked at.",
  [GP+":BinGPG.__init__", GP+":BinGPG._ensure_init", GP+":BinGPG.temp_written_file", GP+":BinGPG.gen_secret_key", ST+":States.__init__"])

p("C84", "What is typed on the command line is what is done",
  "A command runs exactly if its name follows the options of the group and the words after it spell its options and arguments: long options with the value after = or in the next word, letters joined or apart, the last value given counts, two dashes end the options, defaults for what is not given. Every command can be given any arguments. All state is destroyed only if both destroy-all and --yes are typed. Other words change nothing and start nothing, and the exit code is 0 (help, version) or 2: nothing typed at all is a request for help, and a name that is not a command is an error. The directory is the one given by an option, else the one in the environment, else the default. The command is then carried out with exactly these arguments; the exit code is 1 if it fails, with a traceback unless the exception is meant for the user. The program sendmail is started with exactly the words after the command.",
  "all sequences of words, all inputs on stdin, all directories of mails, all states, all programs started",
  "Tests call each command with one or two sets of options; the words that click takes for something else are never tried.",
  [CM+":muacrypt_main", CM+":sendmail", CM+":destroy_all", CM+":add_account", CM+":mod_account", "muacrypt/cmdline_utils.py:MyCommand", "muacrypt/bot.py:bot_reply"])

p("C85", "A process that reads while others write gets what was stored",
  "A program that only looks at the state (a peer's state, the settings, the recommendation) may run while other processes process mails, add, modify or delete accounts on the same directory. Its answer is the one it would get if each read of a log happened in one moment, the other processes working between the reads; so whatever it says about one log was true at some moment during its run, and it never sees a log half written. The reader in turn leaves no trace: without it the other processes could have done exactly the same. An answer that comes from several logs was also true at some moment.",
  "all sequences of calls before, any number of other processes with any calls, all interleavings of their file operations, all programs that only read",
  "Tests run one process at a time; the moments between two file operations of another process cannot be hit.",
  [CH+":BlockService.get_block", CH+":HeadTracker._getheads", CH+":HeadTracker.upsert", CH+":ChainStates.iter_blocks", RE+":Recommendation.ui_recommendation"])

p("C86", "Account objects that are kept behave like accounts got anew",
  "A program may get or add any number of accounts, keep the objects, and call their methods (processing incoming and outgoing mails, encrypting, decrypting, headers, exports, imports, recommendation, peers, settings) in any order, with any other calls in between. Every answer, and everything that is stored, is the same as if it had got the account anew from the manager for every single call: what an object remembers from earlier calls makes no difference.",
  "all reachable states, all sequences of getting, adding, method calls on any of the objects kept, and other calls of the API and the command line",
  "Tests keep an object for a few calls; which calls have filled its cache, and what others did meanwhile, varies without bound.",
  [AC+":Account.bingpg", AC+":Account.create", AC+":AccountManager.get_account", AC+":AccountManager.add_account", "muacrypt/bingpg.py:cached_property"])

p("C87", "A decision that looks several times at a log comes out as if it had looked once",
  "Every property of a peer's state and of the own settings walks through the log anew, so a recommendation, the processing of a mail, the choice of the gpg program and the encryption for a recipient read the same log many times. Their answers and effects are those of a program that reads the log once and decides from that: alone, while other processes work on other logs, and while they work on the same log.",
  "all accounts, mails, recipients and states; for the recommendation also any number of other processes and all interleavings of their file operations",
  "Tests run one process at a time, and cannot place another process between two reads of one property.",
  [ST+":PeerState.entry_for_encryption", ST+":PeerState.update_from_msg", ST+":config_property", RE+":PeerRecommendation.ui_recommendation", AC+":Account.bingpg", AC+":Account.encrypt_mime"])

p("C88", "Whoever sends an encrypted mail can read it with the own key of the account",
  "When process_outgoing encrypts a mail, the own key of the account is among the keys it is encrypted to, whatever mails the account has processed before.",
  "all accounts, reachable states, outgoing mails and sessions of incoming mails",
  "Tests send from addresses for which nobody else has announced a key; whether other mails can replace the key of the sender needs all sessions.",
  [AC+":Account.encrypt_mime", AC+":Account.process_outgoing", AC+":Account.process_autocrypt_header", AC+":Account.process_gossip_headers"])

p("C89", "Everybody to whom the sendmail command delivers an encrypted mail can read it",
  "When the sendmail command encrypts a mail and starts the program sendmail, the mail is encrypted to a key of every recipient the program is told about: by its arguments and, with -t, by the headers To, Cc and Bcc.",
  "all states, mails and argument lists",
  "The tests replace the program sendmail and look at its input only; who it delivers to depends on all arguments and headers.",
  [CM+":sendmail", AC+":Account.process_outgoing", MI+":get_target_fulladr"])

p("C90", "Once mail to a peer can be encrypted, later mail does not make that impossible",
  "If there is a key for a peer, then after any sequence of processed mails there still is one, the same or another.",
  "all accounts, reachable states, peers and sessions of incoming mails, with every outcome of gpg",
  "Tests process a few mails with good keys; whether some mail can take a key away needs all sequences of mails and all failures of gpg.",
  [AC+":Account.process_autocrypt_header", AC+":Account._import_key", ST+":PeerState.update_from_msg", ST+":PeerState.entry_for_encryption"])

p("C91", "A conversation that has become encrypted stays encrypted",
  "Two people with accounts on two computers, both with prefer_encrypt mutual and both always writing through process_outgoing, start as strangers. From the moment on that one of them has processed a mail of the other, every mail they write to the other without ENCRYPT: no goes out encrypted to a key of the other, however the network delays, repeats, reorders or loses the mails, and whatever else the two process in between.",
  "all pairs of machines, accounts, addresses and mails; all interleavings of sending, receiving and other calls, except importing keys by hand, changing settings, deleting the account, and mail of others in the name of one of the two",
  "Tests exchange two or three mails in order; the claim is about all runs of two machines and the network between them.",
  [AC+":Account.process_outgoing", AC+":Account.process_incoming", AC+":Account.process_autocrypt_header", ST+":PeerState.update_from_msg", RE+":Recommendation.ui_recommendation"])

p("C92", "The help lists every command, in the order in which they were added",
  "However many commands muacrypt and its plugins add to the group of commands, the list of commands contains each of them once, in the order of adding, and a name runs the command that was added for it last.",
  "all sequences of added commands",
  "Tests list the commands that come with muacrypt, without plugins.",
  ["muacrypt/cmdline_utils.py:MyGroup.add_command", "muacrypt/cmdline_utils.py:MyGroup.list_commands", CM+":make_plugin_manager"])

p("C93", "A recommendation that is kept says what a new one would say",
  "get_recommendation returns an object. Asked at any later time for ui_recommendation() or target_keyhandles(), it gives the answer that a recommendation made at that time would give.",
  "all accounts, recipients and pairs of reachable states, whatever happened in between",
  "Tests ask right after making the object.",
  [AC+":Account.get_recommendation", RE+":Recommendation.ui_recommendation", RE+":Recommendation.target_keyhandles"])

p("C94", "An encrypted mail arrives as it was written",
  "If a mail is encrypted with encrypt_mime, and the result is decrypted with decrypt_mime, and gpg gives back the bytes that it was given, then the text or the parts of the mail and all its header fields are those that were written, where mails are turned into bytes and back as Python's email package does.",
  "all ordinary mails: any nesting of multipart, any texts of ASCII characters and escaped bytes without CR and without lines that begin with 'From ', header fields that fit into their lines; for other texts: when exactly they arrive",
  "Tests decrypt a few short mails; a line that begins with 'From ' or a character that is not ASCII does not occur in them.",
  [AC+":Account.encrypt_mime", AC+":Account.decrypt_mime", MI+":msg2bytes", MI+":make_content_message_from_email", MI+":transfer_non_content_headers"])

p("C95", "A sent mail means the same to its recipient",
  "If a mail is encrypted with encrypt_mime or by process-outgoing, written with as_string, sent as bytes, and parsed again by the recipient, possibly with one more line end, then decrypt_mime, process_incoming and process-incoming do the same with it and answer the same as with the mail object of the sender, in every state; a mail in the clear is read as it was.",
  "all mails with header fields of visible ASCII characters, any number of lines in a field, any ciphertext without CR and without lines that begin with '--=', all states of sender and recipient",
  "The recipient's program runs elsewhere, on what Python's generator made of the mail; tests pass the mail object itself or one short mail through.",
  [AC+":Account.encrypt_mime", AC+":Account.decrypt_mime", AC+":Account.process_outgoing", AC+":Account.process_incoming", CM+":process_outgoing", CM+":sendmail", CM+":process_incoming", MI+":parse_message_from_file"])

p("C96", "What goes out is what the account's gpg put out in that very call",
  "The key in an Autocrypt header, the exported public and secret keys, the ciphertext of an encrypted mail and the content of a decrypted one are exactly the output of a gpg process that succeeded, that this very call started with the key ring of the account as it was at that moment, and for exactly this key, these recipients and this data; and the call starts no other process.",
  "all states that can be reached, all accounts, mails, recipients and key handles, every behaviour of gpg",
  "It is about every state of the key rings and every output of gpg; tests see a few keys in fresh rings.",
  [AC+":Account.make_ac_header", AC+":Account.export_public_key", AC+":Account.export_secret_key", AC+":Account.encrypt_mime", AC+":Account.decrypt_mime", AC+":Account.process_outgoing", GP+":BinGPG._gpg_outerr"])

p("C97", "Every key handle recorded for a peer was reported by a gpg process that ran",
  "When an account has a key handle for a peer, one of the calls made so far started, for this account and with the program and home directory the account was configured with then, a gpg process that succeeded in importing a key and named this handle in its messages (a short id is completed from a listing made by the next process); the key recorded with the handle is the imported one, or what a later process of the same call exported under the handle.",
  "all histories of calls, all accounts and peers, every behaviour of gpg",
  "It is about every history and everything gpg may say; tests look at the handle after one import of a known key.",
  [AC+":Account.process_incoming", AC+":Account.import_keydata_as_autocrypt", ST+":PeerState.update_from_msg", ST+":PeerState.update_from_msg_gossip", GP+":BinGPG.import_keydata", GP+":BinGPG._find_keyhandle"])

p("C98", "A call whose process is killed loses nothing, and can be repeated",
  "If the process is killed between two operations of any call that deletes nothing, every chain keeps what was recorded, and what is new is the oldest part of what the complete call would have recorded; own keys stay, timestamps of peers lie between those before and after the complete call, other accounts are not touched; a new account is complete or does not exist; a mail is recorded as if the call had been completed or not at all; settings are changed and accounts are deleted completely or not at all; and making the call again leads to the records that the uninterrupted call leads to.",
  "all reachable states (also after earlier kills), all calls, all moments, every behaviour of gpg",
  "A test would have to kill the process at each of its operations in each state; the existing tests never kill it.",
  [AC+":Account.process_incoming", AC+":Account.process_autocrypt_header", AC+":Account.create", AC+":AccountManager.add_account", ST+":PeerState.has_message"])

out = os.path.join(os.path.dirname(__file__), "..", "properties.jsonl")
with open(out, "w") as f:
    for x in P:
        f.write(json.dumps(x) + "\n")
print(len(P))
