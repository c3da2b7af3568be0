T["C01"] = ("proved", "Refinement of files to in-memory logs for every session; hypotheses: serializer round trip, hashes nonempty, no SHA-256 collision among the blocks of the history.")
T["C02"] = ("proved", "All calls except remove/destroy-all, any later session.")
T["C03"] = ("proved", "Also for every crash point of every API call outside the window in which the heads file is open. Needs a clock that never returns the same value twice; the _refuted theorem shows this is necessary.")
T["C04"] = ("partial", "False as stated: the heads file is truncated before it is rewritten, a crash in between makes every log unreadable (refuted, with a universal form). Proved outside that window.")
T["C05"] = ("partial", "Lost updates are possible (refuted by two concurrent process_incoming). Proved: in every interleaving readable logs contain only entries appended to them.")
T["C06"] = ("partial", "False: block contents are not compared with their hash (refuted; universal form proved). Only undecodable contents are noticed.")
T["C07"] = ("proved", "")
T["C08"] = ("proved", "For every session of process_incoming and other calls, from every reachable state; order-independence for distinct dates in the past; and the single-call form for every API call including the command line and the bot. An empty key counts as no key and dates before 1970 are ignored, as in the code.")
T["C09"] = ("proved", "")
T["C10"] = ("partial", "False: last_seen can go back (refuted). Proved: what it is after any session in any order (the newest date since the mail that brought the key in use, or of all mails if there was none), never below the Autocrypt timestamp, one call in detail, and the full statement when mails arrive in the order of their dates.")
T["C11"] = ("proved", "For every API call that processes no mail of the peer and imports no key by hand.")
T["C12"] = ("partial", "False: older gossip replaces newer gossip (refuted). Proved: after any session the gossip in use is that of a mail of the session, with its date, id and key; it never goes back as long as mails arrive in the order of their dates.")
T["C13"] = ("partial", "False for keys gpg cannot import: recorded again each time (refuted). Proved for mails that are not decrypted and whose key gpg imports under a fixed handle, and for encrypted mails with gossip if gpg decrypts them to the same content each time, imports the keys under fixed handles and the gossip addresses are in normal form.")
T["C14"] = ("proved", "Recipients are those of the mail after decryption, which include To/Cc lines inside the encrypted part.")
T["C15"] = ("proved", "")
T["C16"] = ("proved", "The last theorem needs a strictly increasing clock.")
T["C17"] = ("proved", "")
T["C18"] = ("partial", "False for mails without Message-Id (refuted). Proved for mails with a Message-Id other than the empty string and \"None\".")
T["C19"] = ("proved", "Gossip in the same mail that names the sender itself is left aside for a sender without direct key.")
T["C20"] = ("proved", "The peer asked about is the one of the parsed address.")
T["C21"] = ("proved", "For at least one recipient; with none only the own preference counts, so the first recipient can lower caution (refuted form of the unrestricted statement).")
T["C22"] = ("proved", "")
T["C23"] = ("proved", "")
T["C24"] = ("proved", "For every address whose parsed form has no ';' and is stable under parsing; the refuted theorem shows the ';' case.")
T["C25"] = ("partial", "False: an attribute without a name (\"=x\") raises IndexError (refuted). Proved: nothing else raises.")
T["C26"] = ("proved", "Full meaning of every header value written as attributes, white space anywhere.")
T["C27"] = ("proved", "")
T["C28"] = ("proved", "")
T["C29"] = ("proved", "Also for mail without ENCRYPT header when encryption is recommended.")
T["C30"] = ("proved", "The body is unchanged and no gpg process gets any input. A call that returns is assumed; a second theorem shows that it returns when no Autocrypt header has to be made.")
T["C31"] = ("proved", "On the command line for mail that is not resent; resent mail is passed through with the header (refuted form).")
T["C32"] = ("proved", "Reading the added header back has the conditions of C24 on the sender address.")
T["C33"] = ("proved", "")
T["C34"] = ("proved", "MIME-Version of the original is dropped. The round trip assumes that gpg decrypts what it encrypted and that parsing inverts writing for mails with this body.")
T["C35"] = ("proved", "Under the conditions of C24 on the address.")
T["C36"] = ("partial", "False: cleartext Autocrypt-Gossip headers of an encrypted mail are copied to the decrypted mail and believed (refuted). Proved for mail without such headers.")
T["C37"] = ("partial", "False: recipient addresses are compared with capitalization (refuted). Proved for recipients written in normal form: the key told is reported and recorded with id and date of the mail, unless the peer has a newer direct key.")
T["C38"] = ("partial", "False: a gossip key gpg cannot import raises TypeError (refuted). Proved when every header is malformed or has a key gpg imports.")
T["C39"] = ("proved", "For every session without deletion of the account. The key argument of mod_account is ignored by the code, see C42.")
T["C40"] = ("partial", "False for out-of-band verifications: they survive and are taken over by a new account of the same name (refuted). Everything else is proved.")
T["C41"] = ("partial", "False for lookup by address: after a failed add_account it raises AccountNotFound (refuted). Proved: all other accounts are listed and behave as before, and the call can be repeated.")
T["C42"] = ("partial", "False for the key argument, which is ignored, and for the command, which resets the gpg program (both refuted). Proved: all other settings, the answer, and that no other call changes settings.")
T["C43"] = ("proved", "")
T["C44"] = ("proved", "The gpg processes are those recorded in the trace of the model, with the home directory read off their command line.")
T["C45"] = ("proved", "The version of the directory may be written before the name is refused.")
T["C46"] = ("proved", "Answers of every later session equal those in an empty directory with the same clock and system key ring.")
T["C47"] = ("proved", "The version of the directory may be written before.")
T["C48"] = ("proved", "")
T["C49"] = ("proved", "With a strictly increasing clock. If gpg exports nothing for the key it has just imported, no key is recorded.")
T["C50"] = ("partial", "False: the bot's address may occur as a part of another one, and the reply may go to the bot itself if its address is written with other capitalization or is the sender (refuted). Proved: who gets the reply, and that there is none unless the address occurs in To.")
T["C51"] = ("partial", "Encrypted whenever recommended is proved in full. False that it always answers: somebody in copy without a known key makes it raise (refuted). Proved: it answers if header and encryption can be made.")
T["C52"] = ("partial", "False: a mail that makes processing raise stops the scan (refuted). Proved: what is reported and done for each file up to the first such mail, and which mails stop a scan.")
T["C53"] = ("partial", "False: an older mail without header is reported as found; last_ac_msg may name a later mail without header (both refuted). Proved for mail newer than all others of the sender, and when no mail without header came later.")
T["C54"] = ("proved", "Non-ASCII strings: one ends with a string of the same length whose lower case is that of the other.")
T["C55"] = ("proved", "All commands are listed; for incoming mail the variable arguments are hexadecimal key ids only.")
T["C56"] = ("partial", "False: the time zone is ignored (refuted). Proved for dates with the same zone, if mktime is monotone.")
T["C57"] = ("partial", "False: longer than allowed when 100 or more characters are dropped, and wrong for lengths below 20 (both refuted). Proved otherwise, with the exact condition.")
T["C58"] = ("proved", "For all scripts of lines, nested sections and exceptions.")
T["C59"] = ("partial", "False for an empty Resent-From value, which counts as no header (refuted). Proved for all others.")
T["C60"] = ("partial", "False if a subject contains a line break (refuted). Proved if content types, charsets, file names and subjects of the parts have none.")
T["C61"] = ("proved", "One theorem for each command. The user ids shown are those gpg printed. How a mail is written as text and how times are shown are parameters of the model.")
T["C62"] = ("partial", "False for resent mail, which is handed over as it is whatever its ENCRYPT header says (refuted). Everything else is proved.")
T["C63"] = ("partial", "False for the status of peers: one that never sent a mail, known by gossip, is shown as last-was-autocrypt (refuted). Proved: everything shown is what is stored; the status shown compares the two dates.")
T["C64"] = ("proved", "From process_outgoing over any delivery to process_incoming, recommendation and encryption of the reply. The address of the sender must survive being written to a header (see C24), and that gpg imports the key is a hypothesis.")
T["C65"] = ("proved", "Arguments of --encrypt are not restricted here, see C55.")
T["C66"] = ("proved", "")
T["C67"] = ("proved", "del-account on the command line is left out: it shows all other accounts. Accounts that share the system's key ring may of course see each other's keys there.")
T["C68"] = ("partial", "False for a mail that said ENCRYPT: no: its header is gone after the first pass, and the second pass encrypts it (refuted). Proved in all other cases.")
T["C69"] = ("partial", "False as stated: the call fails if a user id does not follow the line about the key (refuted twice), it takes the user id of another key (refuted), and it finds no keys in the text of gpg from 2.3 on (refuted). Proved for reports in the form of gpg before 2.3 with arbitrary other lines between.")
T["C70"] = ("partial", "False for a file name with a directory that does not begin with a slash: it is looked up in PATH, against the help text (refuted). Everything else is proved. For del-account on the command line, which may look at all accounts, only the second theorem speaks.")
T["C71"] = ("partial", "False that every version is accepted: with 2.1-beta3 no account can be made (refuted). Proved for versions made of numbers.")
T["C72"] = ("partial", "False that the user id is the handle: it may contain it anywhere (refuted), so another address that ends in the same way is taken. Proved with that reading.")
T["C73"] = ("proved", "For peers: some run of the program of the account on the recorded key reported the handle; that it was a process that really ran is C97. For a key imported by hand the recorded key is the one exported afterwards.")
T["C74"] = ("partial", "False for keys in mails that come in: an import that fails is logged at most, and the mail is processed as if it had no key (refuted). Proved for all other processes, also those of the calls that process mail; scan-dir is excused, it reports what fails.")
T["C75"] = ("partial", "False for verifications made out of band, which are looked up with the address as written (refuted). Everything else is proved. Mail that goes out is left out, since the names of its header fields are part of what is sent.")
T["C76"] = ("proved", "Plugins are functions of the arguments of the hooks; what they do to the state directory or to key rings themselves is not looked at.")
T["C77"] = ("partial", "False that a missing block file is noticed: the log silently ends there (refuted), and if it is the newest one the next entry begins the log anew. Everything else is proved.")
T["C78"] = ("partial", "False that each packet is one line that gpg wrote: other characters end a line for Python, so that a user id can pretend to be a packet (refuted). Everything else is proved.")
T["C79"] = ("proved", "str.lower and str.isalnum are characterised for ASCII, outside it they are oracles; addresses and dates are those that the library functions of the standard library find in the header value (parameters of the model).")
T["C80"] = ("proved", "")
T["C81"] = ("partial", "False for the number of peers: States.get_num_peers calls get_peername_list without its argument and always raises TypeError (refuted). Everything else proved. An account whose creation failed half-way is listed without being usable (see C41).")
T["C82"] = ("partial", "False for the lines about headers: only LF in a header is escaped, any other line end (VT, FF, CR, U+2028 and so on) begins a new line of the report, which can imitate a line about something else (refuted). Everything else proved, for the complete text of the report and for printing and sending the reply.")
T["C83"] = ("partial", "False if the process is killed: a home directory whose permissions have not been set yet keeps the usual ones for good, an incomplete gpg-agent.conf is never completed (both refuted). False that a temporary file is always removed: on a full disk it stays (refuted). False what a comment in the source says, that a missing base directory is an error (refuted). Everything else proved, in a model of a disk with permissions, free space and death at any operation or in the middle of a write.")
T["C84"] = ("partial", "False for sendmail: a sender given as -fhans@a.org contains the letter h, which click takes for -h: help is printed, the mail is dropped and the exit code is 0 (refuted). False that the separator of two dashes reaches sendmail, so a recipient that starts with a dash becomes an option (refuted). False that a name that is no command is always an error: after one that begins with another character than a letter or a digit, as _status, help is printed and the exit code is 0 (refuted). Everything else proved: which words run which command with which arguments, in both directions; that other words do nothing; and how the process ends.")
T["C85"] = ("partial", "False for an answer that comes from several logs: a recommendation for two recipients can be 'encrypt' although there was no moment at which it was (refuted). False while another process deletes the whole store: a reader can get the newest entries of a log without the older ones (refuted). Proved for all other calls in the other processes: each read of a log is of one moment, what is said about one log was true at some moment, and a reader leaves no trace. Needed: a clock that never shows the same time twice, as for C03.")
T["C86"] = ("partial", "False as soon as the account was given another gpg program: an object that has used gpg goes on with the old one (refuted). False after the account was deleted: a kept object still stores what it learns, and the next account of that name inherits it (refuted). Proved under the condition that at each method call the account exists with the gpg settings it had when the object was made, and in particular while nobody modifies or deletes an account.")
T["C87"] = ("partial", "False while another process writes to the very log: a recommendation can be encrypt although it was so at no moment (refuted), and the handle given to gpg and the key told to the other recipients can be those of two keys (refuted). Proved: nobody else working, every call does the same as if it read each log once per decision; while others work, the recommendation is right if the logs asked for do not change, and otherwise each of its reasons was true in its turn.")
T["C88"] = ("partial", "False: a mail that claims to come from the own address and carries a key makes the account encrypt to that key in place of its own (refuted). Proved: the own key is used as long as no key is recorded for the address of the sender, and a session of mails leaves it so unless one offers or gossips a key for that address.")
T["C89"] = ("partial", "False for a recipient given as an argument and for a blind copy with -t (refuted twice), even if a key is recorded for them. Proved for those who are also named in To or Cc or are the sender, and for calls with options only and without a Bcc header. An option with a separate value is read as an option and a recipient.")
T["C90"] = ("partial", "False: a mail whose Autocrypt header holds no usable key is recorded all the same, hides the key that worked, and a mail that was encrypted before then goes out in clear (refuted). Proved: the only way to lose the key is a mail in the name of the peer with a key that gpg refuses, and the result of processing that mail says so.")
T["C91"] = ("proved", "By an invariant over all runs of the two machines. The key that is sent is assumed to be one that gpg gives out and that the gpg of the other can import; the first mail that is processed must have a date not before 1970. If the other also writes with a program that sends no key, it is false: the next mail goes out in clear (refuted).")
T["C92"] = ("partial", "False: when a plugin adds a command with the name of an existing one, the command is run, but listing the commands fails with an AssertionError (refuted). Proved: the list is right if and only if all names are different; the last command added under a name is run.")
T["C93"] = ("partial", "False: the object keeps the own preference of the moment it was made, so after a change of prefer_encrypt its answer differs from that of a new one (refuted). Proved: the answer is that of a new object if the preference is the same; in general it follows from what is known of the peers now and the preference of then; the key handles are always the current ones.")
T["C94"] = ("partial", "False for all mails: a line that begins with 'From ' arrives with a '>' before it, because BytesGenerator is called without mangle_from_=False (refuted), and a mail whose text has a character that is not ASCII, as in mails that parse_message_from_string made of a str, cannot be encrypted at all (refuted). Proved against a model of Python's generator and parser: ordinary mails, with any nesting of parts, arrive with their parts and fields; a text arrives unchanged exactly if it has no CR and no such line; only ASCII and escaped bytes are ever encrypted.")
T["C95"] = ("partial", "False for all mails: a text whose lines end with CR LF arrives with LF, and process-outgoing adds a line end (refuted). Proved against a model of Python's generator and parser, for header fields of visible ASCII characters: an encrypted mail is always written, and what is read from it means the same as the mail in every state; together with C94, the text of the sender is the text of the recipient; a mail in the clear is read as it was if it is ASCII. The form of Python's boundaries and of the content type with a boundary is assumed (python_wire).")
T["C96"] = ("proved", "")
T["C97"] = ("proved", "Key handles of peers; those of accounts are C72 and C73. That the process ran in that state with these rings is part of the statement.")
T["C98"] = ("partial", "Records, own keys, timestamps, other accounts, new accounts, settings, deletions and mails that are not decrypted: proved. That a killed call can be repeated: proved for mails that are not decrypted whose key gpg imports, with the clock not moving across the date of the mail, and for encrypted mails that are not skipped as known, if gpg decrypts and imports the same way each time and the addresses of the gossip are in normal form; false for encrypted mails when known mails are skipped (witness), because the sender is recorded before the keys in the encrypted part. False for finding accounts by address after a killed creation (witness).")
