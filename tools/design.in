# Formal model of muacrypt in Rocq (Coq 8.16.1)

This file is written by `tools/design.py` from `tools/design.in`, `tools/claims.py` and the theory files.

## Approach

muacrypt is a Python program: an append-only store (`chainstore.py`), typed state on top (`states.py`), a
decision procedure (`recommendation.py`), a header codec and mail manipulation (`mime.py`), a gpg wrapper
(`bingpg.py`), accounts (`account.py`), a bot (`bot.py`) and a command line (`cmdline.py`, `cmdline_utils.py`).

The model is a set of small total computable Gallina functions, one per Python function, in files named like the
Python modules.  Every definition cites the file and lines it models and says what it leaves out.

* Text is a list of code points (`list N`), bytes are a list of numbers, floats of seconds are integers that count
  2^-22 s (exact for all doubles of the time range, see `Env.v`).
* Exceptions are values (`exn`); a Python function that can raise returns `result` or is a `prog`.
* Functions with effects are programs over a signature of operations (`Prog.v`, a free monad with exceptions).  The
  operations are: read the clock, make a uuid, read a chain, append to a chain, list the chains, remove chains, delete
  the directory, run gpg (`Chain.v`, type `cop`).
* The same program is run in three ways: on in-memory logs (`arun`), on files (`Fs.v`: heads file, block files named
  by their hash, written as operations that can be interrupted), and interleaved with other processes (`Conc.v`).
  `Refine.v` proves that running on files gives the answers of running on logs, for every program.
* `Api.v` lists every call of the API and of the command line as a data type.  A state is `reachable` if some list of
  calls leads to it from an empty directory, any of which may have been killed after any number of its operations (`killed`).
  An operation is one read, append or removal, one gpg process or one look at the clock; a kill inside an append is the subject
  of C03 and C04.  Theorems quantify over all reachable states and all calls or sessions.  Where a property is refuted, the
  state is `reached` by complete calls only.
* What the program does not define is the record `Env` (class in `Env.v`): SHA-256, execnet's serializer, `str.lower` and
  `isalnum` outside ASCII, `email.utils`, gpg as a state machine per key ring, the answer of `gpg --version`, the mail parser
  and writer, the files and the `PATH` that executables are searched in, uuids and the clock.  **Every theorem quantifies over an arbitrary `Env`**; a law that a theorem
  needs (e.g. that parsing inverts writing) is a visible hypothesis of this theorem.  `Toy.v` gives one concrete `Env`,
  in which all examples and counterexamples are computed.

Proof method: every API call is shown to be a path of labelled atomic steps, each meeting a guard, all within a scope that
depends on the call (`Steps.v`, `Exec.v`, `ApiScope.v`).  Invariants of stored state (`WF`), frame properties
and monotonicity are proved once per label and carried to all calls, histories, crash points and interleavings by induction.
Decision procedures are compared with separately written tables (`RecSpec.v`, `HeaderSpec.v`, `PeerSpec.v`, ...).

Properties are stated with observations (`Spec.v`: what `get_peerstate`, `ownstate`, `list_account_names` and so on
report) and with small specifications (`*Spec.v`).  The `Props*.v` files contain only statements, each closed by
`exact`, an example beside each showing that its hypotheses can be met in a case that is not trivial, and `Print Assumptions`.

A property that does not hold as stated has a theorem named `..._refuted` (a concrete witness, computed) and the strongest
version found, named `..._partial` if it covers less than the property.

## Files

Model:

@MODEL@

Vocabulary of the statements:

@SPEC@

Statements:

@PROPFILES@

Examples:

@EX@

Proofs:

@PROOF@

## Properties

@PROPS@

## What is modelled and what is not

Modelled: all functions of `chainstore.py`, `states.py`, `recommendation.py`, `account.py`, `mime.py` and `bot.py`, the
commands of `cmdline.py`, and all methods of `bingpg.py`.

Not modelled, or modelled as part of `Env`:

* gpg itself: one process reads and writes exactly the key ring named on its command line, and otherwise does anything.
  Popen failing to start.
* Directories, permissions, full disks and temporary files: only in `Disk.v` (C83), apart from the rest.
* Windows, and a missing `PATH`.  The fixed patterns given to `re` are written out as functions (a pattern given by the user is part of `Env`); `\d` and `\w` are taken for ASCII.
* `email.utils`, the time functions, the serializer of execnet.
* Python's mail writer and parser: only in `EmailText.v` (C94, C95), after the sources of CPython 3.11; elsewhere they are functions of
  `Env`.  The functions of `EmailText.v` were compared with CPython's on 3900 random mails (nested parts, odd line ends, damaged
  delimiters) without a difference.  Folding of long header fields, message/... and digests are left open there (class `EmailLib`).
* Header objects that the compat32 policy returns for header values with undecodable bytes.
* Plugins (`hookspec.py`): only in `Plugins.v` (C76); elsewhere none is registered.
* click's parsing of options: only in `Click.v` (C84), as known from click 6 and 7; elsewhere a command starts with its parsed
  arguments.  The text of error messages with `%r`.
* `as_string`, `ctime`, `isoformat`, the process that `sendmail` starts (class `Shell` in `Commands.v`), smtplib, `int`, the text
  of tracebacks (class `Post` in `BotCommand.v`).  Theorems about commands quantify over these as well.
* `Account` objects that a program keeps, with the gpg settings they cache: only in `Live.v` (C86); elsewhere each call gets its
  account anew.
* Several reads of one log within one decision: only in `Reads.v` (C87), where it is proved that this makes no difference as long as
  no other process writes to the log; elsewhere a decision reads each log once.
* Real time, memory, the cryptographic strength of gpg, durability of a finished write (fsync).
* `testing_plugin.py`.

Each simplification is repeated at the definition it concerns.

## Trusted base

* Coq 8.16.1's kernel (and `coqchk`, which the check runs on the compiled files).
* `Print Assumptions` under every property theorem says "Closed under the global context": no axioms are used.
* `coqchk` lists the axioms declared in any loaded library file.  These are seven names of the standard library, loaded
  with `Lia` and not used by any theorem here: `Coq.ssr.ssrunder.Under_rel.Under_rel`, `Under_rel_from_rel`, `Under_relE`,
  `over_rel`, `over_rel_done`, `under_rel_done`, `Over_rel`.
* The reading of the Python code documented at each definition, and `Env` as the description of the libraries.
* The statements themselves: `Props*.v` with `Spec.v` and the `*Spec.v` files.

## Wrong programs

`tools/mutants.py` lists realistic wrong versions of the model (one edit each), `tools/mutate.py` builds each in a scratch
copy and records which theorems no longer go through.  The results are in `seeded/LOG.jsonl`, one line per attempt.  Edits
that no theorem noticed led to further or stronger theorems; the log says which.
