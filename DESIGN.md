# Formal model of muacrypt in Rocq (Coq 8.16.1)

This file is written by `tools/design.py` from `tools/design.in`, `tools/claims.py` and the theory files.

## Approach

muacrypt is a Python program: an append-only store (`chainstore.py`), typed state on top (`states.py`), a
decision procedure (`recommendation.py`), a header codec and mail manipulation (`mime.py`), a gpg wrapper
(`bingpg.py`), accounts (`account.py`), a bot (`bot.py`) and a command line (`cmdline.py`, `cmdline_utils.py`).

The model is a set of small total computable Gallina functions, one per Python function, in files named like the
Python modules.  Every definition cites the file and lines it models and says what it leaves out.

* Text is a list of code points (`list N`), bytes are a list of numbers, floats of seconds are integers that count
  2^-22 s (exact for all doubles of the time range, see `Env.v`).
* Exceptions are values (`exn`); a Python function that can raise returns `result` or is a `prog`.
* Functions with effects are programs over a signature of operations (`Prog.v`, a free monad with exceptions).  The
  operations are: read the clock, make a uuid, read a chain, append to a chain, list the chains, remove chains, delete
  the directory, run gpg (`Chain.v`, type `cop`).
* The same program is run in three ways: on in-memory logs (`arun`), on files (`Fs.v`: heads file, block files named
  by their hash, written as operations that can be interrupted), and interleaved with other processes (`Conc.v`).
  `Refine.v` proves that running on files gives the answers of running on logs, for every program.
* `Api.v` lists every call of the API and of the command line as a data type.  A state is `reachable` if some list of
  calls leads to it from an empty directory, any of which may have been killed after any number of its operations (`killed`).
  An operation is one read, append or removal, one gpg process or one look at the clock; a kill inside an append is the subject
  of C03 and C04.  Theorems quantify over all reachable states and all calls or sessions.  Where a property is refuted, the
  state is `reached` by complete calls only.
* What the program does not define is the record `Env` (class in `Env.v`): SHA-256, execnet's serializer, `str.lower` and
  `isalnum` outside ASCII, `email.utils`, gpg as a state machine per key ring, the answer of `gpg --version`, the mail parser
  and writer, the files and the `PATH` that executables are searched in, uuids and the clock.  **Every theorem quantifies over an arbitrary `Env`**; a law that a theorem
  needs (e.g. that parsing inverts writing) is a visible hypothesis of this theorem.  `Toy.v` gives one concrete `Env`,
  in which all examples and counterexamples are computed.

Proof method: every API call is shown to be a path of labelled atomic steps, each meeting a guard, all within a scope that
depends on the call (`Steps.v`, `Exec.v`, `ApiScope.v`).  Invariants of stored state (`WF`), frame properties
and monotonicity are proved once per label and carried to all calls, histories, crash points and interleavings by induction.
Decision procedures are compared with separately written tables (`RecSpec.v`, `HeaderSpec.v`, `PeerSpec.v`, ...).

Properties are stated with observations (`Spec.v`: what `get_peerstate`, `ownstate`, `list_account_names` and so on
report) and with small specifications (`*Spec.v`).  The `Props*.v` files contain only statements, each closed by
`exact`, an example beside each showing that its hypotheses can be met in a case that is not trivial, and `Print Assumptions`.

A property that does not hold as stated has a theorem named `..._refuted` (a concrete witness, computed) and the strongest
version found, named `..._partial` if it covers less than the property.

## Files

Model:

| file | contents |
|------|----------|
| `Base` | Basic vocabulary of the model: Python text and byte strings, exceptions as values, Python dictionaries (insertion ordered), and their elementary lemmas. |
| `PyStr` | Python string functions used by /repo, on lists of code points. |
| `Base64` | base64.b64encode and base64.b64decode (non-strict, CPython 3.11 Modules/binascii.c [binascii_a2b_base64_impl]), which /repo/muacrypt/mime.py uses at lines 31 (decode_keydata) and 55 (make_ac_header_value). |
| `Env` | The environment of the modelled program: everything it uses but does not define. |
| `Prog` | Programs over a signature of operations: a free monad with exceptions. |
| `Chain` | Entries of the append-only chains and the abstract ("ideal log") interpretation of the chain operations. |
| `Gpg` | /repo/muacrypt/bingpg.py: the gpg command line wrapper. |
| `Mime` | /repo/muacrypt/mime.py: header parsing and message construction (pure functions). |
| `MimeTree` | /repo/muacrypt/mime.py:297-352 make_displayable and render_mime_structure. |
| `States` | /repo/muacrypt/states.py: chain names, per-peer state, own state, out-of-band verifications, account manager state. |
| `Recommendation` | /repo/muacrypt/recommendation.py. |
| `Account` | /repo/muacrypt/account.py: AccountManager and Account. |
| `Cmdline` | /repo/muacrypt/cmdline.py and cmdline_utils.py: the logic of the subcommands. |
| `Bot` | /repo/muacrypt/bot.py. |
| `BotCommand` | /repo/muacrypt/bot.py:20-131: the bot-reply command with the report it writes and the delivery of the reply. |
| `Commands` | /repo/muacrypt/cmdline.py: the commands as processes, with the text they print, the exit code and the sendmail process they start. |
| `Click` | /repo/muacrypt/cmdline.py and cmdline_utils.py: from the words typed on the command line to the command with its parsed arguments, and the end of the process. |
| `Group` | The group of commands of the command line program, which plugins can add to. |
| `Fs` | /repo/muacrypt/chainstore.py: the chain operations implemented by operations on files: one heads file and one file per block, named by the SHA-256 of its content. |
| `Disk` | Directories, files and their permissions: what creating a BinGPG or a States object does on disk, and temporary files. |
| `Crash` | A process that dies: after any prefix of its file operations, possibly in the middle of one of them. |
| `Conc` | Several processes using one state directory at the same time: their file operations interleave in any order (chainstore.py takes no lock). |
| `Api` | The API of the program as a data type: one constructor per call a user (or mail user agent, or the command line) can make on a state directory, and sessions of such calls. |
| `Plugins` | Plugins (hookspec.py): the two hooks that are called with mail, and the calls of the account that call them. |
| `Reader` | /repo/muacrypt/chainstore.py: reading chains block by block. |
| `Reads` | Reading piece by piece. |
| `Live` | Account objects that a program keeps. |
| `RecObj` | A recommendation as an object that is kept: made at one time, asked at others. |
| `GpgMore` | /repo/muacrypt/bingpg.py: the methods of BinGPG that no other module of the program uses. |
| `EmailText` | Writing a mail as bytes and reading it back: mime.msg2bytes (/repo/muacrypt/mime.py:36-47) before encryption (account.py:519) and email.message_from_bytes after decryption (account.py:546); as_string when a mail is sent (cmdline.py:370, 421, bot.py:24, 131) and parsing of standard input (mime.py:94-95). |

Vocabulary of the statements:

| file | contents |
|------|----------|
| `Spec` | Observations: what a user of the API sees of a state. |
| `PeerSpec` | Vocabulary of the properties about peers: what a mail says, independent of how process_incoming goes about it. |
| `HeaderSpec` | What an Autocrypt header value says: vocabulary for C24-C28, independent of how mime.py takes a value apart. |
| `RecSpec` | What the Autocrypt rules recommend, as a table on what is reported about a peer. |
| `OutSpec` | Vocabulary of the properties about outgoing mail. |
| `AcctSpec` | Vocabulary of the account properties C39-C49. |
| `CmdSpec` | Vocabulary of the properties of the commands C61-C63. |
| `CliSpec` | Vocabulary of the properties of the bot, the command line and helper functions. |
| `TalkSpec` | Vocabulary of the properties of conversations, C64 and following. |
| `IndepSpec` | Vocabulary of the independence of accounts, C67. |
| `GpgSpec` | Vocabulary of the properties about what gpg prints (C69 to C73). |
| `KeySpec` | Vocabulary of the properties about the keys that accounts and peers get (C72 to C74). |
| `FailSpec` | Vocabulary of the properties about what happens when gpg fails (C74). |
| `CaseSpec` | Vocabulary of the properties about capital letters (C75). |
| `RealSpec` | Vocabulary of the properties about what the gpg processes of a call really put out (C96). |
| `ToldSpec` | Vocabulary of the properties about the gpg processes behind the recorded key handles (C97). |
| `PluginSpec` | Vocabulary of the properties about plugins (C76). |
| `ReaderSpec` | Vocabulary of the properties about reading and damaged files (C77). |
| `GpgMoreSpec` | Vocabulary of the properties about the other methods of BinGPG (C78). |
| `VocabSpec` | What a mail says, in words that do not use the functions of the program (C79), and which key of a peer counts (C80). |
| `ListsSpec` | Vocabulary of C81: what accounts list, and what is recorded as verified. |
| `MinimSpec` | Vocabulary for C49: a key imported by hand is reduced to what is needed. |
| `BotSpec` | Vocabulary of the properties about the bot's report and the delivery of its reply (C82). |
| `DiskSpec` | Vocabulary of the properties about directories, files and permissions (C83). |
| `ClickSpec` | Vocabulary of C84: what may be typed after [muacrypt], and what it means. |
| `WatchSpec` | Vocabulary of C85: a process that only reads, while others write. |
| `LiveSpec` | Vocabulary of C86: the same program, getting an account anew for every call. |
| `ReadsSpec` | Vocabulary of C87: decisions that read the same log several times. |
| `SeenSpec` | Vocabulary for the dates of mails over a whole session. |
| `AudienceSpec` | Vocabulary for who can read a mail that was encrypted: the own key of the account, and the addresses that the program sendmail delivers to. |
| `LostSpec` | Vocabulary for C90: a key that is recorded although gpg does not take it. |
| `ConvSpec` | Vocabulary for C91: two people, each with an account on a computer of their own, who write to each other over a network that may delay, reorder, repeat and lose mails, while both also do other things. |
| `EmailSpec` | Vocabulary of C94: mails that arrive as they were written. |
| `WireSpec` | Vocabulary of C95: mails on their way from one machine to another. |
| `KillSpec` | Vocabulary for C98: calls whose process is killed. |

Statements:

| file | contents |
|------|----------|
| `PropsStore` | C01-C07: the store. |
| `PropsPeer` | C08-C19: what is known about peers. |
| `PropsRec` | C20-C23: recommendations. |
| `PropsHeader` | C24-C28: Autocrypt header values. |
| `PropsOut` | C29-C38: outgoing mail, encryption and gossip. |
| `PropsAcct` | C39-C49: accounts. |
| `PropsCli` | C50-C60: the bot, the command line, gpg command lines, helpers. |
| `PropsCmd` | C61-C63: the commands as they are typed: what is printed, the exit code, the program started. |
| `PropsTalk` | C64 to C66: from one mail to the next. |
| `PropsIndep` | C67: accounts do not depend on each other. |
| `PropsAgain` | C68: mail that is processed twice. |
| `PropsGpg` | C69: what gpg reports. |
| `PropsProg` | C70 and C71: the program that is started as gpg, and its version. |
| `PropsKey` | C72 and C73: the keys of accounts and peers are the ones that gpg told. |
| `PropsFail` | C74: no failure of gpg is overlooked. |
| `PropsReal` | C96: what is sent, shown and given out is what the gpg of the account put out in that very call. |
| `PropsTold` | C97: every key handle recorded for a peer was reported by a gpg process that ran. |
| `PropsCase` | C75: capital letters make no difference. |
| `PropsPlugin` | C76: plugins. |
| `PropsReader` | C77: logs read block by block, and missing or damaged block files. |
| `PropsMore` | C78: the other methods of BinGPG. Statements only; proofs are in GpgMoreProofs.v, the vocabulary is in GpgMoreSpec.v. |
| `PropsVocab` | C79 and C80: what the statements about mails mean, and which key of a peer counts. |
| `PropsTwice` | C13 for encrypted mail. |
| `PropsLists` | C81. Statements only; proofs are in ListsProofs.v. |
| `PropsMinim` | C49: a key imported by hand is minimised. |
| `PropsBot` | C82: the bot's report and the delivery of its reply. |
| `PropsDisk` | C83: directories, files and permissions. |
| `PropsClick` | C84: from the words typed to the command, and how the process ends. |
| `PropsWatch` | C85: a process that reads while others write. |
| `PropsLive` | C86: account objects that a program keeps. |
| `PropsReads` | C87: decisions that read the same log several times. |
| `PropsSeen` | C10 and C12 over whole sessions, in any order of arrival. |
| `PropsAudience` | C88, C89: who can read a mail that was encrypted. |
| `PropsLost` | C90: mails that come in do not make encryption impossible. |
| `PropsConv` | C91: a conversation that has become encrypted stays encrypted. |
| `PropsGroup` | C92: the list of commands in the help. |
| `PropsRecObj` | C93: recommendation objects that are kept. |
| `PropsEmail` | C94: the text of an encrypted mail arrives as it was written. |
| `PropsWire` | C95: mails mean the same to their recipient. |
| `PropsKill` | C98: calls whose process is killed. |

Examples:

| file | contents |
|------|----------|
| `Toy` | A concrete environment, used only for examples (that hypotheses can be met) and for counterexamples. |
| `Demo` | Sessions in the toy environment used by the examples beside the theorems. |

Proofs:

| file | contents |
|------|----------|
| `Utf8` | UTF-8: what was encoded decodes to itself, and only that. |
| `Refine` | The file-level store refines the abstract logs: for every program, running it on files gives the same result as running it on plain lists. |
| `Steps` | Every API call is a sequence of labelled atomic steps. |
| `StepFacts` | What single steps do: chain names, decision functions of the peer updates, frame and preservation of well-formedness. |
| `Exec` | Every API call makes only guarded steps, within a scope that depends on the call. |
| `ApiScope` | The scope of every API call, and: every API call is a path of guarded steps in its scope. |
| `Obs` | Running the observation calls. |
| `StoreFacts` | Facts about the store: sessions on files, what a log contains, block files never change. |
| `StoreProofs` | Proofs of the properties of the store (C01-C07). |
| `Incoming` | process_incoming taken apart: an equation for its run, and the effect on logs. |
| `PeerFacts` | Facts about peer logs, and what the steps of an arbitrary call can do to them. |
| `PeerProofs` | Proofs for C08-C19. |
| `PeerProofs2` | Proofs for C10-C19. |
| `PeerProofs3` | Proofs for C12-C19. |
| `PeerProofs4` | Proofs for C12, C13, C15-C19. |
| `HeaderProofs` | Proofs for C24-C28. |
| `RecProofs` | Proofs for C20-C23. |
| `Quiet` | Programs that start gpg and read, but write nothing. |
| `OutProofs` | Outgoing mail: runs of process_outgoing and encrypt_mime taken apart. |
| `OutProofs2` | Outgoing mail: the properties C29 to C35. |
| `GossipProofs` | Gossip in incoming mail: C36 to C38. |
| `AcctFacts` | Facts about listed accounts and peers, and what a call does not touch. |
| `AcctProofs` | Proofs of C39-C42: keys, deletion, creation and settings of accounts. |
| `AcctProofs2` | Proofs of C43, C45-C48: address lookup, account names, destroying, unknown accounts, version. |
| `Rings` | Which key rings calls work on (C44). |
| `ImportProofs` | Importing a key by hand (C49). |
| `CmdProofs` | Proofs about the commands (C61-C63). |
| `CmdProofs2` | Proofs about what the commands print (C61, C62, C63). |
| `CliProofs` | Key ids, truncated strings, log sections, mime trees. |
| `CliProofs2` | gpg command lines, dates, resent mail, reports of the command line. |
| `CliProofs3` | Scanning a directory and the bot: C50 to C52. |
| `TalkProofs` | From one mail to the next: proofs of C64. |
| `GpgUse` | What gpg is asked for by each call: proofs of C65. |
| `Indep` | Calls on an account do not depend on the others: proofs of C67. [same Q p]: run from two related states, [p] has the same result and leads to related states. |
| `OutAgain` | A mail that process_outgoing made is left alone when it is processed again (C68). |
| `GpgText` | Proofs about the texts that gpg prints. |
| `ProgProofs` | Which program is started (C70). |
| `VersionProofs` | The version that gpg tells (C71). |
| `GpgProofs` | Proofs about decryption and what gpg reports (C69). |
| `KeyText` | Key listings and the keys that gpg names on stderr (C72, C73). |
| `KeyProofs` | The keys of new accounts (C72, C73, C74). |
| `HandleProofs` | Where the key handles of peers come from (C73). |
| `FailProofs` | Failures of gpg are not overlooked (C74). |
| `CaseProofs` | Capitalization makes no difference (C75). |
| `RealProofs` | What the gpg processes of a call really put out (C96). |
| `ToldProofs` | The gpg processes behind the recorded key handles (C97). |
| `ToldProofs2` | The gpg processes behind the recorded key handles: all calls (C97). |
| `ToldProofs3` | The gpg processes behind the recorded key handles: histories (C97). |
| `PluginProofs` | Plugins (C76). |
| `ReaderProofs` | Reading chains block by block: proofs of C77. |
| `GpgMoreProofs` | The other methods of BinGPG (C78). |
| `VocabProofs` | Proofs for C79 and C80. |
| `TwiceProofs` | Processing an encrypted mail again (C13). |
| `ListsProofs` | Proofs of C81. |
| `MinimProofs` | Proof of C49_minimised. |
| `BotProofs` | The bot's report and the delivery of its reply: C82. |
| `DiskProofs` | Directories, files and permissions: proofs of C83. |
| `ClickProofs` | Proofs of C84. |
| `WatchProofs` | Proofs of C85. |
| `LiveProofs` | Proofs of C86. |
| `ReadsProofs` | Proofs for C87. |
| `SeenProofs` | Proofs for C10 and C12 over whole sessions: what last_seen and the newest gossip are. |
| `AudienceProofs` | Proofs about who can read an encrypted mail (C88, C89). |
| `LostProofs` | Proofs for C90. |
| `ConvProofs` | Proofs for C91. |
| `GroupProofs` | Proofs for C92. |
| `RecObjProofs` | Proofs for C93. |
| `EmailProofs` | Proofs for C94. |
| `EmailUse` | Encrypted mails, written and read as Python does (C94). |
| `WireProofs` | Mails on their way from one machine to another (C95). |
| `KillProofs` | Proofs for C98: calls whose process is killed. |
| `KillProofs2` | A call whose process was killed, made again, for mails with gossip (C98). |
| `KillProofs3` | Settings and deletions whose process is killed (C98). |

## Properties

| id | property | status | file | theorems | remarks |
|----|----|----|----|----|----|
| C01 | Stored state behaves like per-name append-only logs | proved | PropsStore | `sessions_on_files_answer_as_on_lists`, `logs_hold_exactly_what_was_appended`, `append_adds_one_entry_to_one_log` | Refinement of files to in-memory logs for every session; hypotheses: serializer round trip, hashes nonempty, no SHA-256 collision among the blocks of the history. |
| C02 | Recorded history is immutable | proved | PropsStore | `block_files_never_change` | All calls except remove/destroy-all, any later session. |
| C03 | A crash before the heads file is reopened loses nothing | proved | PropsStore | `crash_before_heads_changes_nothing`, `crash_of_any_call`, `needs_a_moving_clock_refuted` | Also for every crash point of every API call outside the window in which the heads file is open. Needs a clock that never returns the same value twice; the _refuted theorem shows this is necessary. |
| C04 | A crash at any point of an append leaves the old or the new state | partial | PropsStore | `crash_leaves_old_or_new_partial`, `every_append_has_a_fatal_window`, `crash_leaves_old_or_new_refuted` | False as stated: the heads file is truncated before it is rewritten, a crash in between makes every log unreadable (refuted, with a universal form). Proved outside that window. |
| C05 | Concurrent processes do not lose each other's updates | partial | PropsStore | `concurrent_updates_survive_refuted`, `readable_logs_contain_only_appended_entries_partial`, `interleavings_keep_log_conditions` | Lost updates are possible (refuted by two concurrent process_incoming). Proved: in every interleaving readable logs contain only entries appended to them. |
| C06 | Tampering with a recorded entry is detected | partial | PropsStore | `any_forged_head_block_is_accepted`, `tampering_is_detected_refuted`, `undecodable_head_block_is_noticed_partial` | False: block contents are not compared with their hash (refuted; universal form proved). Only undecodable contents are noticed. |
| C07 | Accounts and peers never share a log | proved | PropsStore | `logs_are_kept_apart` |  |
| C08 | The key in use is the one from the most recently dated Autocrypt message, whatever the arrival order | proved | PropsPeer | `newest_key_wins`, `newest_key_of_a_new_peer`, `order_of_arrival_does_not_matter`, `key_changes_only_for_a_newer_one` | For every session of process_incoming and other calls, from every reachable state; order-independence for distinct dates in the past; and the single-call form for every API call including the command line and the bot. An empty key counts as no key and dates before 1970 are ignored, as in the code. |
| C09 | The Autocrypt timestamp of a peer never goes backwards | proved | PropsPeer | `timestamp_never_goes_back` |  |
| C10 | last_seen is the date of the most recent mail seen | partial | PropsPeer, PropsSeen | `last_seen_not_before_autocrypt_partial`, `one_call_partial`, `last_seen_is_the_newest_date_partial`, `last_seen_refuted`, `newest_date_since_the_key_partial` | False: last_seen can go back (refuted). Proved: what it is after any session in any order (the newest date since the mail that brought the key in use, or of all mails if there was none), never below the Autocrypt timestamp, one call in detail, and the full statement when mails arrive in the order of their dates. |
| C11 | Gossip never overrides a direct key | proved | PropsPeer | `gossip_never_overrides` | For every API call that processes no mail of the peer and imports no key by hand. |
| C12 | Older gossip does not replace newer gossip | partial | PropsPeer, PropsSeen | `gossip_has_the_date_of_its_mail_partial`, `gossip_moves_forward_partial`, `older_gossip_refuted`, `gossip_of_a_session`, `gossip_never_goes_back_partial` | False: older gossip replaces newer gossip (refuted). Proved: after any session the gossip in use is that of a mail of the session, with its date, id and key; it never goes back as long as mails arrive in the order of their dates. |
| C13 | Processing the same mail again changes nothing | partial | PropsPeer, PropsTwice | `processing_again_changes_nothing_partial`, `processing_again_refuted`, `encrypted_mail_again_partial` | False for keys gpg cannot import: recorded again each time (refuted). Proved for mails that are not decrypted and whose key gpg imports under a fixed handle, and for encrypted mails with gossip if gpg decrypts them to the same content each time, imports the keys under fixed handles and the gossip addresses are in normal form. |
| C14 | Processing a mail touches only the peers it concerns | proved | PropsPeer | `mail_touches_only_its_peers` | Recipients are those of the mail after decryption, which include To/Cc lines inside the encrypted part. |
| C15 | Unencrypted mail cannot plant gossip keys | proved | PropsPeer | `unencrypted_mail_plants_no_gossip` |  |
| C16 | Dates from the future are never recorded | proved | PropsPeer | `dates_are_in_the_past`, `dates_are_not_after_now`, `current_mail_is_never_blocked` | The last theorem needs a strictly increasing clock. |
| C17 | A key is accepted only from one valid header whose address is the sender's | proved | PropsPeer | `key_only_from_one_valid_header` |  |
| C18 | A mail is skipped as known only if it was processed before | partial | PropsPeer | `skipped_mail_was_seen_partial`, `skipped_mail_refuted` | False for mails without Message-Id (refuted). Proved for mails with a Message-Id other than the empty string and "None". |
| C19 | Mail without a valid Autocrypt header never changes the key | proved | PropsPeer | `mail_without_key_keeps_the_key` | Gossip in the same mail that names the sender itself is left aside for a sender without direct key. |
| C20 | Recommendation for one recipient follows the Autocrypt rules | proved | PropsRec | `one_recipient` | The peer asked about is the one of the parsed address. |
| C21 | Recommendation for several recipients is the most cautious one | proved | PropsRec | `most_cautious`, `more_recipients_more_caution`, `order_and_repetition_do_not_matter`, `disable_iff_a_key_is_missing`, `no_recipients`, `first_recipient_refuted` | For at least one recipient; with none only the own preference counts, so the first recipient can lower caution (refuted form of the unrestricted statement). |
| C22 | Asking for a recommendation always gives an answer and changes nothing | proved | PropsRec | `always_an_answer` |  |
| C23 | Without a reply, mail is encrypted automatically only if everybody wants it | proved | PropsRec | `automatic_only_if_everybody_wants_it` |  |
| C24 | Generated Autocrypt headers parse back to what was put in | proved | PropsHeader | `round_trip`, `other_preferences_are_rejected`, `any_address_refuted` | For every address whose parsed form has no ';' and is stable under parsing; the refuted theorem shows the ';' case. |
| C25 | Parsing a header value never raises | partial | PropsHeader | `never_raises_refuted`, `never_raises_partial`, `only_nameless_attributes_raise_partial` | False: an attribute without a name ("=x") raises IndexError (refuted). Proved: nothing else raises. |
| C26 | Unknown critical attributes reject a header; underscore attributes do not matter | proved | PropsHeader | `meaning`, `critical_attributes_reject`, `underscore_attributes_do_not_matter`, `order_does_not_matter` | Full meaning of every header value written as attributes, white space anywhere. |
| C27 | Header lines stay short and carry the whole key | proved | PropsHeader | `folding` |  |
| C28 | Base64 key transport is lossless | proved | PropsHeader | `lossless`, `keys_in_headers`, `different_keys_look_different` |  |
| C29 | A mail that must be encrypted is never sent in clear | proved | PropsOut | `never_sent_in_clear` | Also for mail without ENCRYPT header when encryption is recommended. |
| C30 | A mail that must not be encrypted is not | proved | PropsOut | `not_encrypted_unless_asked`, `does_return` | The body is unchanged and no gpg process gets any input. A call that returns is assumed; a second theorem shows that it returns when no Autocrypt header has to be made. |
| C31 | The ENCRYPT control header never leaves the machine | proved | PropsOut | `no_encrypt_header`, `no_encrypt_header_command_line`, `resent_command_line_refuted` | On the command line for mail that is not resent; resent mail is passed through with the header (refuted form). |
| C32 | Outgoing mail carries exactly the right Autocrypt header | proved | PropsOut | `autocrypt_headers_kept`, `autocrypt_header_added` | Reading the added header back has the conditions of C24 on the sender address. |
| C33 | Encrypted mail can be read by every recipient and the sender | proved | PropsOut | `readable_by_all_recipients` |  |
| C34 | Encryption keeps headers outside and content inside | proved | PropsOut | `headers_outside_content_inside`, `outgoing_headers`, `decryption`, `there_and_back` | MIME-Version of the original is dropped. The round trip assumes that gpg decrypts what it encrypted and that parsing inverts writing for mails with this body. |
| C35 | Gossip headers tell the truth | proved | PropsOut | `gossip_tells_the_truth` | Under the conditions of C24 on the address. |
| C36 | Only gossip inside the encrypted part is believed | partial | PropsOut | `gossip_from_inside_partial`, `gossip_from_cleartext_refuted` | False: cleartext Autocrypt-Gossip headers of an encrypted mail are copied to the decrypted mail and believed (refuted). Proved for mail without such headers. |
| C37 | Gossip reaches every recipient regardless of capitalization | partial | PropsOut | `gossip_reaches_recipients_partial`, `capital_letters_refuted` | False: recipient addresses are compared with capitalization (refuted). Proved for recipients written in normal form: the key told is reported and recorded with id and date of the mail, unless the peer has a newer direct key. |
| C38 | A malformed gossip header does no harm | partial | PropsOut | `malformed_gossip_does_no_harm_partial`, `unimportable_gossip_refuted` | False: a gossip key gpg cannot import raises TypeError (refuted). Proved when every header is malformed or has a key gpg imports. |
| C39 | The own key of an account never changes | proved | PropsAcct | `own_key_stays`, `add_again` | For every session without deletion of the account. The key argument of mod_account is ignored by the code, see C42. |
| C40 | Deleting an account removes all its state and nothing else | partial | PropsAcct | `deleted_and_nothing_else`, `created_again_partial`, `verifications_survive_refuted` | False for out-of-band verifications: they survive and are taken over by a new account of the same name (refuted). Everything else is proved. |
| C41 | A failed add_account leaves the manager usable | partial | PropsAcct | `others_usable`, `can_be_retried`, `refused_at_once`, `found_by_address_refuted` | False for lookup by address: after a failed add_account it raises AccountNotFound (refuted). Proved: all other accounts are listed and behave as before, and the call can be repeated. |
| C42 | mod_account changes exactly what was asked | partial | PropsAcct | `mod_account`, `mod_command_partial`, `nothing_else_modifies`, `key_ignored_refuted`, `command_resets_program_refuted` | False for the key argument, which is ignored, and for the command, which resets the gpg program (both refuted). Proved: all other settings, the answer, and that no other call changes settings. |
| C43 | Address lookup finds the first matching account in name order | proved | PropsAcct | `first_match`, `no_match`, `no_match_raises`, `route`, `route_delivered` |  |
| C44 | An account with its own keyring never touches another keyring | proved | PropsAcct | `own_ring_only`, `rings_of_accounts`, `system_ring_unused` | The gpg processes are those recorded in the trace of the model, with the home directory read off their command line. |
| C45 | Account names cannot escape the state directory | proved | PropsAcct | `other_names_refused`, `home_is_child`, `homes_differ` | The version of the directory may be written before the name is refused. |
| C46 | destroy-all resets everything | proved | PropsAcct | `nothing_left`, `like_empty_directory`, `not_confirmed` | Answers of every later session equal those in an empty directory with the same clock and system key ring. |
| C47 | Unknown accounts are reported, not created | proved | PropsAcct | `unknown_account` | The version of the directory may be written before. |
| C48 | The version of the state directory is set once | proved | PropsAcct | `one_version`, `never_changes`, `set_on_first_use`, `present_with_accounts` |  |
| C49 | Importing a key by hand associates it with exactly the right addresses | proved | PropsAcct, PropsMinim | `imported_for`, `for_nobody_else`, `minimised` | With a strictly increasing clock. If gpg exports nothing for the key it has just imported, no key is recorded. |
| C50 | The bot answers only mail addressed to it and never itself | partial | PropsCli | `reply_only_when_addressed_partial`, `part_of_address_refuted`, `reply_to_itself_refuted` | False: the bot's address may occur as a part of another one, and the reply may go to the bot itself if its address is written with other capitalization or is the sender (refuted). Proved: who gets the reply, and that there is none unless the address occurs in To. |
| C51 | The bot's reply is encrypted whenever recommended, and it always answers | partial | PropsCli | `encrypted_if_recommended`, `answers_partial`, `no_answer_refuted` | Encrypted whenever recommended is proved in full. False that it always answers: somebody in copy without a known key makes it raise (refuted). Proved: it answers if header and encryption can be made. |
| C52 | Scanning a mail folder processes every mail | partial | PropsCli | `scan_file_by_file_partial`, `bad_mail_stops_scan_refuted` | False: a mail that makes processing raise stops the scan (refuted). Proved: what is reported and done for each file up to the first such mail, and which mails stop a scan. |
| C53 | process-incoming reports truthfully whether Autocrypt information was found | partial | PropsCli | `reports_peer_state_partial`, `truth_about_new_mail_partial`, `old_mail_refuted`, `peerstate_partial`, `peerstate_refuted` | False: an older mail without header is reported as found; last_ac_msg may name a later mail without header (both refuted). Proved for mail newer than all others of the sender, and when no mail without header came later. |
| C54 | Keys are matched by id suffix | proved | PropsCli | `symmetric`, `match_by_suffix`, `match_ascii` | Non-ASCII strings: one ends with a string of the same length whose lower case is that of the other. |
| C55 | Mail content and keys are passed to gpg only on standard input | proved | PropsCli | `gpg_commands`, `commands_for_incoming_mail`, `encrypt_command` | All commands are listed; for incoming mail the variable arguments are hexadecimal key ids only. |
| C56 | Message dates are compared as instants | partial | PropsCli | `same_zone_partial`, `other_zone_refuted` | False: the time zone is ignored (refuted). Proved for dates with the same zone, if mktime is monotone. |
| C57 | Truncated header display is bounded | partial | PropsCli | `truncated_partial`, `too_long_refuted`, `short_refuted` | False: longer than allowed when 100 or more characters are dropped, and wrong for lengths below 20 (both refuted). Proved otherwise, with the exact condition. |
| C58 | Log sections never leak indentation | proved | PropsCli | `sections_restore_indentation`, `exceptions_contained` | For all scripts of lines, nested sections and exceptions. |
| C59 | Forwarded (resent) mail is passed through untouched | partial | PropsCli | `resent_mail_untouched_partial`, `empty_value_refuted` | False for an empty Resent-From value, which counts as no header (refuted). Proved for all others. |
| C60 | The mime structure rendering has one line per part | partial | PropsCli | `one_line_per_part_partial`, `folded_subject_refuted` | False if a subject contains a line break (refuted). Proved if content types, charsets, file names and subjects of the parts have none. |
| C61 | Each command does its call and prints its result | proved | PropsCmd | `commands_make_their_calls`, `find`, `recommend`, `make_header`, `export`, `process_outgoing`, `process_incoming`, `import_public_key`, `peerstate`, `add_account`, `mod_account`, `del_account`, `destroy_all` | One theorem for each command. The user ids shown are those gpg printed. How a mail is written as text and how times are shown are parameters of the model. |
| C62 | The sendmail command hands over exactly the processed mail | partial | PropsCmd | `sendmail_passes_on`, `sendmail_never_in_the_clear_partial`, `sendmail_needs_arguments`, `resent_in_the_clear_refuted` | False for resent mail, which is handed over as it is whatever its ENCRYPT header says (refuted). Everything else is proved. |
| C63 | The status command tells what is stored | partial | PropsCmd | `status_of_account_partial`, `status_of_all_partial`, `status_of_gossip_refuted` | False for the status of peers: one that never sent a mail, known by gossip, is shown as last-was-autocrypt (refuted). Proved: everything shown is what is stored; the status shown compares the two dates. |
| C64 | Two accounts exchange keys by ordinary mail | proved | PropsConv, PropsTalk | `key_of_the_ring_is_sent`, `key_is_sent`, `key_is_learned`, `exchange`, `reply_is_recommended`, `reply_uses_the_key` | From process_outgoing over any delivery to process_incoming, recommendation and encryption of the reply. The address of the sender must survive being written to a header (see C24), and that gpg imports the key is a hypothesis. |
| C65 | gpg is asked for nothing but what a call needs | proved | PropsTalk | `commands_of_each_call`, `one_kind`, `secret_keys`, `deletion`, `generation` | Arguments of --encrypt are not restricted here, see C55. |
| C66 | Recommended keys are the keys encrypted to | proved | PropsTalk | `target_keyhandles`, `agrees_with_encryption` |  |
| C67 | Accounts do not depend on each other | proved | PropsIndep | `same_answers`, `same_answers_private`, `same_sessions`, `calls_on_others` | del-account on the command line is left out: it shows all other accounts. Accounts that share the system's key ring may of course see each other's keys there. |
| C68 | Outgoing mail may pass process_outgoing twice | partial | PropsAgain | `processed_once_partial`, `encrypted_mail_is_final`, `encrypt_no_refuted` | False for a mail that said ENCRYPT: no: its header is gone after the first pass, and the second pass encrypts it (refuted). Proved in all other cases. |
| C69 | Decryption reports the keys that gpg names | partial | PropsGpg | `decryption_reports_keys`, `decryption_returns_partial`, `no_user_id_refuted`, `other_line_refuted`, `newer_gpg_refuted`, `wrong_user_id_refuted` | False as stated: the call fails if a user id does not follow the line about the key (refuted twice), it takes the user id of another key (refuted), and it finds no keys in the text of gpg from 2.3 on (refuted). Proved for reports in the form of gpg before 2.3 with arbitrary other lines between. |
| C70 | The program started is the one chosen for the account | partial | PropsProg | `program_of_the_account`, `program_was_given`, `relative_file_refuted` | False for a file name with a directory that does not begin with a slash: it is looked up in PATH, against the help text (refuted). Everything else is proved. For del-account on the command line, which may look at all accounts, only the second theorem speaks. |
| C71 | The options for keys without passphrase go with the version of gpg | partial | PropsProg | `options_of_the_version`, `other_versions_refuted` | False that every version is accepted: with 2.1-beta3 no account can be made (refuted). Proved for versions made of numbers. |
| C72 | An account made for a given key gets a key with that name | partial | PropsKey | `given_key`, `exact_user_id_refuted` | False that the user id is the handle: it may contain it anywhere (refuted), so another address that ends in the same way is taken. Proved with that reading. |
| C73 | Key handles are the ones that gpg reported | proved | PropsKey | `generated_key`, `peer_key` | For peers: some run of the program of the account on the recorded key reported the handle; that it was a process that really ran is C97. For a key imported by hand the recorded key is the one exported afterwards. |
| C74 | No failure of gpg is overlooked | partial | PropsFail | `not_overlooked`, `rings`, `import_refuted` | False for keys in mails that come in: an import that fails is logged at most, and the mail is processed as if it had no key (refuted). Proved for all other processes, also those of the calls that process mail; scan-dir is excused, it reports what fails. |
| C75 | Capitalization makes no difference | partial | PropsCase | `header_names`, `peer`, `recommend`, `import`, `encrypt`, `verification_refuted` | False for verifications made out of band, which are looked up with the address as written (refuted). Everything else is proved. Mail that goes out is left out, since the names of its header fields are part of what is sent. |
| C76 | Plugins decide about the encrypted content and nothing else | proved | PropsPlugin | `none`, `incoming`, `encrypt`, `never_sent_in_clear`, `not_encrypted_unless_asked`, `commands_of_each_call`, `objection` | Plugins are functions of the arguments of the hooks; what they do to the state directory or to key rings themselves is not looked at. |
| C77 | Reading a log finds the newest entry, also when older files are damaged | partial | PropsReader | `readers`, `accessors`, `newest`, `missing`, `unreadable`, `replaced`, `files`, `shortrepr`, `restart`, `loss_is_noticed_refuted` | False that a missing block file is noticed: the log silently ends there (refuted), and if it is the newest one the next entry begins the log anew. Everything else is proved. |
| C78 | The other methods of the gpg wrapper: packets, signatures, the agent, versions, error texts | partial | PropsMore | `lines`, `white_space`, `packets`, `packets_unique`, `list_packets`, `list_packets_returns`, `public_key_packets`, `secret_key_packets`, `sign`, `sign_returns`, `verify`, `killagent`, `agent_conf`, `eddsa`, `failure`, `one_line_each_refuted` | False that each packet is one line that gpg wrote: other characters end a line for Python, so that a user id can pretend to be a packet (refuted). Everything else is proved. |
| C79 | Mails are read as their text says | proved | PropsVocab | `white_space`, `small_letters`, `letters_and_digits`, `utf8`, `pieces`, `words`, `begins_with`, `within`, `order`, `fields`, `content_type`, `encrypted`, `address`, `from`, `date`, `id`, `to`, `opened`, `opens`, `not_in_the_clear` | str.lower and str.isalnum are characterised for ASCII, outside it they are oracles; addresses and dates are those that the library functions of the standard library find in the header value (parameters of the model). |
| C80 | The key of a peer is that of one entry: direct before gossip | proved | PropsVocab | `which_key_counts` |  |
| C81 | What is listed is what is there, and the newest verification counts | partial | PropsLists | `accounts_listed`, `listed_if_created`, `appears`, `stays`, `deleted`, `peers_listed`, `number_of_peers_refuted`, `verified` | False for the number of peers: States.get_num_peers calls get_peername_list without its argument and always raises TypeError (refuted). Everything else proved. An account whose creation failed half-way is listed without being usable (see C41). |
| C82 | The bot's report is true and its reply goes to those addressed | partial | PropsBot | `report_partial`, `last_line`, `recipients`, `fake_line_refuted` | False for the lines about headers: only LF in a header is escaped, any other line end (VT, FF, CR, U+2028 and so on) begins a new line of the report, which can imitate a line about something else (refuted). Everything else proved, for the complete text of the report and for printing and sending the reply. |
| C83 | Directories and temporary files are made with care | partial | PropsDisk | `any_time`, `done_partial`, `can`, `no_home`, `not_found`, `states`, `temp_partial`, `key_file`, `key_file_any_time`, `private_refuted`, `conf_refuted`, `basedir_refuted`, `temp_left_refuted` | False if the process is killed: a home directory whose permissions have not been set yet keeps the usual ones for good, an incomplete gpg-agent.conf is never completed (both refuted). False that a temporary file is always removed: on a full disk it stays (refuted). False what a comment in the source says, that a missing base directory is an error (refuted). Everything else proved, in a model of a disk with permissions, free space and death at any operation or in the middle of a write. |
| C84 | What is typed on the command line is what is done | partial | PropsClick | `line`, `can`, `destroy`, `nothing`, `help`, `unknown_partial`, `unknown_mark`, `directory`, `command`, `scandir`, `bot`, `sendmail_partial`, `sendmail_refuted`, `separator_refuted`, `unknown_refuted` | False for sendmail: a sender given as -fhans@a.org contains the letter h, which click takes for -h: help is printed, the mail is dropped and the exit code is 0 (refuted). False that the separator of two dashes reaches sendmail, so a recipient that starts with a dash becomes an option (refuted). False that a name that is no command is always an error: after one that begins with another character than a letter or a digit, as _status, help is printed and the exit code is 0 (refuted). Everything else proved: which words run which command with which arguments, in both directions; that other words do nothing; and how the process ends. |
| C85 | A process that reads while others write gets what was stored | partial | PropsWatch | `every_read_is_of_one_moment`, `one_log_at_one_moment`, `reader_leaves_no_trace`, `recommendation_only_reads`, `whole_answer_of_one_moment_refuted`, `while_the_store_is_deleted_refuted` | False for an answer that comes from several logs: a recommendation for two recipients can be 'encrypt' although there was no moment at which it was (refuted). False while another process deletes the whole store: a reader can get the newest entries of a log without the older ones (refuted). Proved for all other calls in the other processes: each read of a log is of one moment, what is said about one log was true at some moment, and a reader leaves no trace. Needed: a clock that never shows the same time twice, as for C03. |
| C86 | Account objects that are kept behave like accounts got anew | partial | PropsLive | `kept_objects`, `while_nobody_modifies_or_deletes`, `other_program_refuted`, `deleted_account_refuted` | False as soon as the account was given another gpg program: an object that has used gpg goes on with the old one (refuted). False after the account was deleted: a kept object still stores what it learns, and the next account of that name inherits it (refuted). Proved under the condition that at each method call the account exists with the gpg settings it had when the object was made, and in particular while nobody modifies or deletes an account. |
| C87 | A decision that looks several times at a log comes out as if it had looked once | partial | PropsReads | `alone`, `while_these_logs_stay`, `each_read_of_one_moment`, `reasons_in_turn`, `answer_of_one_moment_refuted`, `handle_and_key_refuted` | False while another process writes to the very log: a recommendation can be encrypt although it was so at no moment (refuted), and the handle given to gpg and the key told to the other recipients can be those of two keys (refuted). Proved: nobody else working, every call does the same as if it read each log once per decision; while others work, the recommendation is right if the logs asked for do not change, and otherwise each of its reasons was true in its turn. |
| C88 | Whoever sends an encrypted mail can read it with the own key of the account | partial | PropsAudience | `sender_reads_unless_a_key_is_recorded_partial`, `sender_reads_through_a_session_partial`, `claimed_address_refuted` | False: a mail that claims to come from the own address and carries a key makes the account encrypt to that key in place of its own (refuted). Proved: the own key is used as long as no key is recorded for the address of the sender, and a session of mails leaves it so unless one offers or gossips a key for that address. |
| C89 | Everybody to whom the sendmail command delivers an encrypted mail can read it | partial | PropsAudience | `named_recipients_can_read_partial`, `recipients_of_the_header_can_read_partial`, `recipient_given_as_argument_refuted`, `blind_copy_refuted` | False for a recipient given as an argument and for a blind copy with -t (refuted twice), even if a key is recorded for them. Proved for those who are also named in To or Cc or are the sender, and for calls with options only and without a Bcc header. An option with a separate value is read as an option and a recipient. |
| C90 | Once mail to a peer can be encrypted, later mail does not make that impossible | partial | PropsLost | `only_refused_keys_hide_a_key_partial`, `good_keys_partial`, `junk_key_refuted` | False: a mail whose Autocrypt header holds no usable key is recorded all the same, hides the key that worked, and a mail that was encrypted before then goes out in clear (refuted). Proved: the only way to lose the key is a mail in the name of the peer with a key that gpg refuses, and the result of processing that mail says so. |
| C91 | A conversation that has become encrypted stays encrypted | proved | PropsConv | `first_mail`, `stays_acquainted`, `letters_are_encrypted`, `mail_without_key_refuted` | By an invariant over all runs of the two machines. The key that is sent is assumed to be one that gpg gives out and that the gpg of the other can import; the first mail that is processed must have a date not before 1970. If the other also writes with a program that sends no key, it is false: the next mail goes out in clear (refuted). |
| C92 | The help lists every command, in the order in which they were added | partial | PropsGroup | `listed_in_order_partial`, `with_plugins_partial`, `last_added_runs`, `replaced_command_refuted` | False: when a plugin adds a command with the name of an existing one, the command is run, but listing the commands fails with an AssertionError (refuted). Proved: the list is right if and only if all names are different; the last command added under a name is run. |
| C93 | A recommendation that is kept says what a new one would say | partial | PropsRecObj | `as_a_new_one_partial`, `kept_recommendation`, `handles_are_current`, `changed_preference_refuted` | False: the object keeps the own preference of the moment it was made, so after a change of prefer_encrypt its answer differs from that of a new one (refuted). Proved: the answer is that of a new object if the preference is the same; in general it follows from what is known of the peers now and the preference of then; the key handles are always the current ones. |
| C94 | An encrypted mail arrives as it was written | partial | PropsEmail | `read_back`, `arrives_partial`, `text_exactly`, `only_ascii`, `from_line_refuted`, `umlaut_refuted` | False for all mails: a line that begins with 'From ' arrives with a '>' before it, because BytesGenerator is called without mangle_from_=False (refuted), and a mail whose text has a character that is not ASCII, as in mails that parse_message_from_string made of a str, cannot be encrypted at all (refuted). Proved against a model of Python's generator and parser: ordinary mails, with any nesting of parts, arrive with their parts and fields; a text arrives unchanged exactly if it has no CR and no such line; only ASCII and escaped bytes are ever encrypted. |
| C95 | A sent mail means the same to its recipient | partial | PropsWire | `encrypted_partial`, `outgoing_partial`, `letter_partial`, `clear_partial`, `sendmail`, `line_ends_refuted` | False for all mails: a text whose lines end with CR LF arrives with LF, and process-outgoing adds a line end (refuted). Proved against a model of Python's generator and parser, for header fields of visible ASCII characters: an encrypted mail is always written, and what is read from it means the same as the mail in every state; together with C94, the text of the sender is the text of the recipient; a mail in the clear is read as it was if it is ASCII. The form of Python's boundaries and of the content type with a boundary is assumed (python_wire). |
| C96 | What goes out is what the account's gpg put out in that very call | proved | PropsReal | `header`, `public_key`, `secret_key`, `encrypt`, `decrypt`, `outgoing` |  |
| C97 | Every key handle recorded for a peer was reported by a gpg process that ran | proved | PropsTold | `peer_key` | Key handles of peers; those of accounts are C72 and C73. That the process ran in that state with these rings is part of the statement. |
| C98 | A call whose process is killed loses nothing, and can be repeated | partial | PropsKill | `records_kept`, `own_key_stays`, `timestamp_between`, `other_accounts`, `account_whole_or_absent`, `mail_recorded_or_not`, `repeat_partial`, `repeat_encrypted_refuted`, `repeat_encrypted_partial`, `repeat_many_partial`, `settings_all_or_nothing`, `settings_again`, `list_of_accounts_refuted` | Records, own keys, timestamps, other accounts, new accounts, settings, deletions and mails that are not decrypted: proved. That a killed call can be repeated: proved for mails that are not decrypted whose key gpg imports, with the clock not moving across the date of the mail, and for encrypted mails that are not skipped as known, if gpg decrypts and imports the same way each time and the addresses of the gossip are in normal form; false for encrypted mails when known mails are skipped (witness), because the sender is recorded before the keys in the encrypted part. False for finding accounts by address after a killed creation (witness). |

## What is modelled and what is not

Modelled: all functions of `chainstore.py`, `states.py`, `recommendation.py`, `account.py`, `mime.py` and `bot.py`, the
commands of `cmdline.py`, and all methods of `bingpg.py`.

Not modelled, or modelled as part of `Env`:

* gpg itself: one process reads and writes exactly the key ring named on its command line, and otherwise does anything.
  Popen failing to start.
* Directories, permissions, full disks and temporary files: only in `Disk.v` (C83), apart from the rest.
* Windows, and a missing `PATH`.  The fixed patterns given to `re` are written out as functions (a pattern given by the user is part of `Env`); `\d` and `\w` are taken for ASCII.
* `email.utils`, the time functions, the serializer of execnet.
* Python's mail writer and parser: only in `EmailText.v` (C94, C95), after the sources of CPython 3.11; elsewhere they are functions of
  `Env`.  The functions of `EmailText.v` were compared with CPython's on 3900 random mails (nested parts, odd line ends, damaged
  delimiters) without a difference.  Folding of long header fields, message/... and digests are left open there (class `EmailLib`).
* Header objects that the compat32 policy returns for header values with undecodable bytes.
* Plugins (`hookspec.py`): only in `Plugins.v` (C76); elsewhere none is registered.
* click's parsing of options: only in `Click.v` (C84), as known from click 6 and 7; elsewhere a command starts with its parsed
  arguments.  The text of error messages with `%r`.
* `as_string`, `ctime`, `isoformat`, the process that `sendmail` starts (class `Shell` in `Commands.v`), smtplib, `int`, the text
  of tracebacks (class `Post` in `BotCommand.v`).  Theorems about commands quantify over these as well.
* `Account` objects that a program keeps, with the gpg settings they cache: only in `Live.v` (C86); elsewhere each call gets its
  account anew.
* Several reads of one log within one decision: only in `Reads.v` (C87), where it is proved that this makes no difference as long as
  no other process writes to the log; elsewhere a decision reads each log once.
* Real time, memory, the cryptographic strength of gpg, durability of a finished write (fsync).
* `testing_plugin.py`.

Each simplification is repeated at the definition it concerns.

## Trusted base

* Coq 8.16.1's kernel (and `coqchk`, which the check runs on the compiled files).
* `Print Assumptions` under every property theorem says "Closed under the global context": no axioms are used.
* `coqchk` lists the axioms declared in any loaded library file.  These are seven names of the standard library, loaded
  with `Lia` and not used by any theorem here: `Coq.ssr.ssrunder.Under_rel.Under_rel`, `Under_rel_from_rel`, `Under_relE`,
  `over_rel`, `over_rel_done`, `under_rel_done`, `Over_rel`.
* The reading of the Python code documented at each definition, and `Env` as the description of the libraries.
* The statements themselves: `Props*.v` with `Spec.v` and the `*Spec.v` files.

## Wrong programs

`tools/mutants.py` lists realistic wrong versions of the model (one edit each), `tools/mutate.py` builds each in a scratch
copy and records which theorems no longer go through.  The results are in `seeded/LOG.jsonl`, one line per attempt.  Edits
that no theorem noticed led to further or stronger theorems; the log says which.
