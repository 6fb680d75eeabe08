# Formal model of aarondl/bpass in Rocq (Coq 8.16.1)

The Go source in `/repo` is modelled by hand as total, executable Gallina
functions, one Gallina definition per Go function, each citing the file and
lines it models.  Properties are stated in terms of small specifications kept
apart from the model, and proved by induction, invariants or refinement, with
no bound on sizes, lengths or numbers of steps.

## Layout (`rocq/theories`, logical name `Verif`)

| files | content |
|---|---|
| `Base.v` | Go outcomes (`Ok`/`Fail`/`Panic`), byte strings, slicing, decimal numbers |
| `Model_*.v` | the model, no proofs |
| `Spec_*.v` | specifications that do not mention the model's helpers |
| `Proof_*.v` | lemmas and proofs |
| `Props_*.v` | one `Theorem` per claim, closed by `exact`, with `Print Assumptions` and a concrete `Example` meeting its hypotheses |

## Modelling conventions

* Go `string` = Coq `string` (arbitrary bytes), `[]byte` = `list ascii` or
  `string`, `int`/`int64` = `Z` (64-bit wrap-around is modelled where the code
  can reach it, otherwise the comment says so), `map` = std++ `gmap`.
* A Go function that can panic returns `Panic`; that returns `error` returns
  `Fail e`; a function that mutates its receiver returns the new state as well
  as the outcome, also when it fails.
* Range over a Go map: the order is a parameter `ord`, constrained only to be
  a permutation of the map's bindings.  Theorems quantify over it.
* Clock, uuid generation, random bytes, user input, remote servers, the file
  system: inputs (oracles) of the model functions; theorems quantify over them.
* Cryptographic primitives (AES, Camellia, CAST5 block functions, scrypt,
  SHA-256, SHA-512): fields of a record `prims`.  Theorems assume only
  `prims_ok` (decrypting a block inverts encrypting it, output lengths); an
  instance is exhibited.  Hash results are stated as "success exhibits an
  explicit collision", never by assuming injectivity.
* Prompts and everything typed are a list of inputs (a line or an error); a
  dialogue is a function from that list to a result and the rest of the list,
  to an error, to a crash, or to "waiting for more".  `os.Exit` counts as a
  crash.
* Slices that alias: the transaction log is modelled as visible part plus the
  rest of its backing array, since `Rollback` reslices past the length.

A property that does not hold of the code is kept in full; the claim is then
`partial` in MANIFEST.json: a theorem `..._refuted` exhibits a witness
execution of the model, and a theorem `..._partial` proves the property under
the weakest guard found.

## Trusted base

* The kernel of Coq 8.16.1 (type checking, including conversion by
  `vm_compute` in a few small examples), and `coqchk`, which rechecks every
  compiled file.
* `Print Assumptions` follows every theorem in the `Props_*` files and prints
  "Closed under the global context" for each of them: no theorem depends on an
  axiom.  No axiom, parameter, section-less variable, functor or module type is
  declared in this development, and no kernel check is switched off.
* `coqchk` lists the following constants of the libraries that are loaded
  (through std++), on which no theorem here depends:
  `Coq.ssr.ssrunder.Under_rel.Under_rel`, `.Under_rel_from_rel`,
  `.Under_relE`, `.Over_rel`, `.over_rel`, `.over_rel_done`,
  `.under_rel_done`.
* std++ (definitions and proofs are checked by the same kernel; its
  definitions of `gmap`, `list` and `string` functions occur in statements).
* The transcription of the Go code into the `Model_*` files, which was made by
  reading and is not checked by a machine, and the meaning given there to the
  Go language (strings as bytes, slices, maps, 64-bit integers) and to its
  standard library.  Library functions whose behaviour matters are transcribed
  as well: strings, strconv, unicode/utf8, encoding/json (for the types used),
  encoding/hex, encoding/csv (writer and reader), cipher.CBC, bufio.Scanner,
  net/url and net.JoinHostPort (`Model_Url`), encoding/base32 and
  github.com/pquerna/otp (`Model_Otp`).  The sources of these libraries are not
  in /repo: they were written down from knowledge of them.
* What is assumed of the world stands in the hypotheses of each theorem
  (`prims_ok` for the ciphers and hashes, `fair` for the order of map
  iteration, `rand_ok` for the length of random reads, `clock_ok` for times
  that fit int64, `text_world` for helpers that give text for text, …), never
  in an axiom.

## What is modelled

| Go file | modelled (in) | left out |
|---|---|---|
| txlogs/tx.go, txlogs.go, errors.go | everything (`Model_TxLog`, `Model_Merge`, JSON in `Model_Json`) | the texts of errors |
| blobformat/blobs.go, blob.go, constants.go | everything except below (`Model_Blobs`); two factor codes (`Model_Otp`, with the library pquerna/otp) | HMAC-SHA1 (a parameter); the library's floating point division of the time, which is integer division here; `blob.Keys`, `UUIDs` and `Names` as such (lists of map keys, inlined where used); JSON tags |
| fuzzy/fuzzy.go | everything (`Model_Fuzzy`, `MatchFold` in `Model_Fold`); `unicode.ToLower` is a parameter | |
| pkcs7/pad.go | everything (`Model_Pkcs7`) | |
| crypt/*.go | everything (`Model_Crypt`): version 1, the refusal of version 0, parameters, file layout, chaining | block functions, hashes and scrypt are parameters |
| passwd_gen.go | everything (`Model_PassGen`), wrap-around included | limits of memory |
| merging.go | everything (`Model_Merging`, `Model_Sync`, the text about a conflict in `Model_Conflict`) | other texts shown |
| uihelpers.go | everything (`Model_UI`, `Model_Dialogue`) | prompts and help texts |
| uicontext.go | everything (`Model_Session`) | |
| commands.go | everything (`Model_Session`, `Model_Commands`; the check of urls in `Model_Links`; the layout of show and rekeyall in `Model_Layout`) | colours, the layout of the other lists; making of ssh keys, running the editor, the browser and the clipboard are oracles |
| repl.go | everything (`Model_Repl`, `Model_Help`) | the texts of the other messages |
| main.go | `loadBlob`, `saveBlob` (`Model_Session`); `main` from the opened file on, for the command loop (`Model_Repl`); all of `main` with its subcommands and `shortPath` (`Model_Cli`) | colours, texts of messages |
| sync.go | `sync`, `collectSyncs`, `pullBlob`, `pushBlob`, `decryptBlob`, `saveHosts` (`Model_Sync`; run as a command and around a session in `Model_Syncing`), the host check (`Model_Hosts`), `sshPull`, `sshPush`, `sshConfig` (`Model_Ssh`; oracles in `Model_Sync`, `over_ssh` puts them in) | parsing of private keys is an oracle |
| scpsync/scpsync.go | everything (`Model_Scp`, `Model_Ssh`) | the ssh library: whom it reaches, what it answers |
| pinentry/pinentry.go | the dialogue with the program (`Model_Pinentry`) | starting it |
| export.go, import.go | everything (`Model_Export`, `Model_Import`), with encoding/csv's writer and its reader in the default configuration (`Model_Csv`) | the reader's column numbers in errors |
| line_editing.go | the interface (`Model_UI`) | |
| cli.go | `parseCli` from the values of the flags on (`Model_Cli`), with `time.Parse`, `time.Date` and `UnixNano` of Go 1.18 for the one layout used (`Model_Time`) | flaggy: how words of the command line become values |
| readline.go | tab completion of entries and the words offered, the handling of prompts and errors (`Model_Editor`) | the readline library |
| noreadline.go | everything (`Model_Editor`); bufio.Scanner up to the first line that is too long | the console's own behaviour |
| osutil/* | which program is started with which arguments (`Model_Editor`) | the programs |

## Plan per property

| id | modelled | proof |
|---|---|---|
| C01 | DB record, all of txlogs.go's mutators | invariant over operation sequences; off-by-one in Rollback refuted |
| C02 | Do/Begin/Rollback with backing array | invariant; refuted for the off-by-one, partial under a guard |
| C03 | RollbackN | induction on log/replay |
| C04 | appendLog and its callers | direct, for every operation sequence (prefix preorder) |
| C05 | applyTx | induction on the log against a declarative last-writer spec |
| C06, C07 | EntrySnapshotAt, SnapshotAt | refinement to replay of a log prefix; negative n refuted |
| C08 | UpdateSnapshot | induction |
| C09 | NVersions, LastUpdated | induction |
| C10 | Save guard, Begin/Commit | direct; nested Begin refuted |
| C11-C15 | Merge | simultaneous induction on both logs, against the sorted union |
| C16 | Merge/sync fast path | witness with three replicas; partial under "one log is a prefix of or equal to the other" |
| C17-C19 | Merge with resolutions | induction over chains of answers; what is visible afterwards; refuted cases by witness |
| C20 | mergeLogs with a list of input lines | induction on the input |
| C21-C22 | Merge, mergeLogs | case analysis/induction |
| C23-C36 | blobformat | refinement to an abstract map of entries; arbitrary iteration order |
| C37 | fuzzy.Match over UTF-8 decoding | induction on the decoded strings |
| C38 | pkcs7 | list arithmetic |
| C39-C46 | crypt | symbolic execution with the `prims` record |
| C47, C48, C67 | genPassword | loop invariants, arbitrary random bytes |
| C49-C50 | JSON encoder and parser for the DB type, byte level | parser/printer round trip by induction |
| C51-C54, C56 | load/save/makeParams, user commands | composition of the above |
| C55 | reopening at a time in the past | replay of a prefix, induction over sessions |
| C57-C58 | export, import, the text of a CSV file | an RFC 4180 reader and a grammar of CSV text as specifications; induction over records and over the lines |
| C59 | host check | against the lines and words of the known hosts |
| C60-C61 | sync | induction over remotes with arbitrary outcomes; a small invariant calculus for the pull and push loops; `Props_SyncUsers` for stores of several users |
| C62 | scp | induction over byte streams, against OpenSSH's two sides |
| C63 | pinentry | against the escapes of the Assuan protocol |
| C64, C66, C68 | prompts | induction on input |
| C65 | password dialogue | invariant of its loop |
| C69-C77 | commands, command loop | Hoare triples over the command monad (`Proof_Repl5`), one lemma per command |
| C78 | command lines | parser against a grammar taken from the usage texts |
| C79 | command loop | a big-step relation of turns, sound and complete |
| C80 | a whole session of any mode, save and reopen | C69/C76 invariants + C51; `Props_Main` (single user), `Props_Multi` (any mode) |
| C81 | text in, text stored | UTF-8 closure of every string operation, by induction on runes; one lemma per command |
| C82 | net/url, `sshConfig`, addsync's urls | round trips of escape/unescape and of host:port by induction on bytes; the text itself and the port question in `Props_UrlText` |
| C83 | `sshPull`, `sshPush` with a trace of what is given away | case analysis over the dialogue, on top of C59 and C62; unquoted path refuted |
| C84 | `sync` put into the command loop and around it (`Model_Syncing`) | C79-C81 with the oracle replaced by the modelled sync; invariants of sync over all outcomes; `Props_SyncUsers` for sessions of several users |
| C85 | `time.Parse`, `Date`, `UnixNano`, `parseCli` | inversion of the parser against a grammar; calendar arithmetic with the next day as specification; reopening in the past from C55 |
| C86 | `main` with the subcommands | case analysis of whole runs, on top of C51, C57, C58, C67 and C84; `Props_Cli` (single user), `Props_Runs` (multi-user files) |
| C87 | `shortPath` | induction on the parts of the path |
| C88 | `entryCompleter`, the words of `readlineAutocompleter` | from what Search returns (C29), and the meaning of command lines (C78) |
| C89 | `LineHidden` and `Line` of noreadline.go | induction over the pieces read; UTF-16 against an encoder |
| C90 | prompts of readline.go, osutil | induction; case analysis |
| C91 | `SetTwofactor`, `TwoFactor`, set and get of `totp` (`Model_Otp`) | against RFC 4648, 4226 and 6238 on bits and numbers; the url by the transcribed net/url |
| C92 | `set` of urls, `openurl` (`Model_Links`) | url.Parse against a grammar, both ways; case analysis of the commands |
| C93 | the project's tests | symbolic execution of the operations, round trips of C38, C39, C47 |
| C94 | help texts of repl.go (`Model_Help`) | the usages computed from the texts; case analysis of the commands |
| C95 | `AddHistory` in `run` (`Model_Help`) | induction over the turns of C79 |
| C96 | two runs of `bpass` (`Model_Cli`) on one file | C80 and C86 chained through the file; a run reads the file once and writes it last |
| C97 | `showKeyValue`, `showHidden`, `showMultiline`, the widths (`Model_Layout`) | counting runes; the text parsed back, by induction over the rows |
| C98 | what every command shows; the question of `mergeLogs` (`Model_Conflict`) | case analysis of the commands, induction over the turns; C15 for the conflicts |
| C99 | machines as logs, a sync as `no_changes`, `mergeLogs` and a push | invariant over all runs: new transactions are at the end of a log and nowhere else; C11, C60 |

Not expressible here: resistance of the ciphers/KDF to cryptanalysis, timing,
terminal echo, clipboard contents, ssh transport.  They are not listed as
properties.
