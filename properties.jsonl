{"id": "C01", "title": "Reads see exactly the replayed history", "statement": "After any sequence of store operations (Add, Set, Delete, DeleteKey, Begin, Commit, Rollback, RollbackN, UpdateSnapshot, ResetSnapshot) on a new DB, once UpdateSnapshot succeeds the Snapshot equals what one gets by applying every transaction of the Log in order to an empty map, and Version equals the number of transactions.", "quantifier": "all finite sequences of DB API calls, all uuids, keys, values, clock readings and slice-growth decisions", "why_tests_cant": "tests sample a handful of operation histories; the claim is about every history", "anchors": ["txlogs/txlogs.go:UpdateSnapshot", "txlogs/txlogs.go:Rollback", "txlogs/txlogs.go:RollbackN", "txlogs/txlogs.go:applyTx"]}
{"id": "C02", "title": "A failed transaction leaves no trace", "statement": "If the function passed to DB.Do returns an error, the store afterwards shows exactly the log and the entries it had before Do was called, whatever the function did, including refreshing the snapshot at any point.", "quantifier": "all stores, all bodies made of store operations, all points at which the snapshot is refreshed", "why_tests_cant": "tests sample a handful of operation histories; the claim is about every history", "anchors": ["txlogs/txlogs.go:Do", "txlogs/txlogs.go:Begin", "txlogs/txlogs.go:Rollback"]}
{"id": "C03", "title": "RollbackN undoes exactly the last n changes", "statement": "RollbackN(n) with n no larger than the log removes exactly the last n transactions, and subsequent reads show the state before them; with n larger it returns an error and changes nothing; n=0 is a no-op.", "quantifier": "all stores and all n", "why_tests_cant": "needs every relation between n, log length and snapshot version", "anchors": ["txlogs/txlogs.go:RollbackN"]}
{"id": "C04", "title": "History is append-only", "statement": "Add, Set, Delete and DeleteKey append exactly one transaction, carrying exactly the given uuid/key/value and kind and the clock's time, and leave every earlier transaction untouched; reads never change the log.", "quantifier": "all stores and arguments", "why_tests_cant": "tests sample a handful of operation histories; the claim is about every history", "anchors": ["txlogs/txlogs.go:Add", "txlogs/txlogs.go:Set", "txlogs/txlogs.go:Delete", "txlogs/txlogs.go:DeleteKey", "txlogs/txlogs.go:appendLog"]}
{"id": "C05", "title": "The visible value is the last one written", "statement": "For a log that replays without error, entry U is visible iff it has an add not followed by a delete, and U[K] = V iff the last transaction touching U's key K (a set or a key delete) since that add is a set of V; other keys and entries are unaffected.", "quantifier": "all replayable logs, all uuids and keys", "why_tests_cant": "quantifies over all histories", "anchors": ["txlogs/txlogs.go:applyTx", "txlogs/txlogs.go:getEntry"]}
{"id": "C06", "title": "Entry history is exact", "statement": "EntrySnapshotAt(U,n) returns what the whole store showed for U just after the transaction on U that is n transactions-on-U before the latest one; KeyNotFound when U was not visible then; an error when there are not that many versions. It never crashes.", "quantifier": "all replayable logs, all uuids, all integers n", "why_tests_cant": "depends on how other entries' transactions interleave with U's, in every history", "anchors": ["txlogs/txlogs.go:EntrySnapshotAt", "commands.go:show"]}
{"id": "C07", "title": "Store history is exact", "statement": "SnapshotAt(n) is the state of the whole store n transactions ago, for every n from 0 to the number of transactions, and an error beyond that. It never crashes.", "quantifier": "all replayable logs and all integers n", "why_tests_cant": "boundary n = len and negative n, all histories", "anchors": ["txlogs/txlogs.go:SnapshotAt"]}
{"id": "C08", "title": "A bad transaction is reported, not skipped", "statement": "If some transaction of the log cannot be applied, UpdateSnapshot returns its error, keeps the state just before it, never applies anything after it, and reports the same error on every later call.", "quantifier": "all logs and all positions of the bad transaction", "why_tests_cant": "tests sample a handful of operation histories; the claim is about every history", "anchors": ["txlogs/txlogs.go:UpdateSnapshot", "txlogs/txlogs.go:applyTx"]}
{"id": "C09", "title": "Version counts and last-updated times", "statement": "NVersions(U) is the number of transactions on U and LastUpdated(U) is the time of the last of them, -1 if there is none.", "quantifier": "all logs and uuids", "why_tests_cant": "all histories", "anchors": ["txlogs/txlogs.go:NVersions", "txlogs/txlogs.go:LastUpdated"]}
{"id": "C10", "title": "No save inside a transaction; begin/commit discipline", "statement": "Save refuses while a transaction is open and succeeds otherwise; Commit keeps every change; Commit and Rollback panic when no transaction is open; Begin panics when one is already open (as documented).", "quantifier": "all stores and call orders", "why_tests_cant": "tests sample a handful of operation histories; the claim is about every history", "anchors": ["txlogs/txlogs.go:Save", "txlogs/txlogs.go:Begin", "txlogs/txlogs.go:Commit"]}
{"id": "C11", "title": "Merge is the time-ordered union", "statement": "Merging two time-ordered logs without conflicts yields the time-ordered union of their transactions: nothing lost, nothing duplicated, nothing invented.", "quantifier": "all pairs of time-ordered logs that agree on shared timestamps, any fork structure", "why_tests_cant": "every interleaving of two histories", "anchors": ["txlogs/txlogs.go:Merge"]}
{"id": "C12", "title": "Both replicas converge", "statement": "Merge(a,b) and Merge(b,a) give the same log, whoever pulls first.", "quantifier": "all pairs of time-ordered logs", "why_tests_cant": "every interleaving", "anchors": ["txlogs/txlogs.go:Merge"]}
{"id": "C13", "title": "Re-syncing changes nothing; grouping does not matter", "statement": "Merging a log with itself or with something already merged into it returns it unchanged; merging three logs gives the same result in any grouping.", "quantifier": "all triples of time-ordered logs", "why_tests_cant": "every interleaving", "anchors": ["txlogs/txlogs.go:Merge", "merging.go:mergeBlobs"]}
{"id": "C14", "title": "A merge never poisons the store", "statement": "If both logs replay without error, a merge that reports no conflicts replays without error as well.", "quantifier": "all pairs of replayable time-ordered logs whose entry ids are globally unique", "why_tests_cant": "every interleaving of deletes, sets and adds", "anchors": ["txlogs/txlogs.go:Merge", "sync.go:sync"]}
{"id": "C15", "title": "Conflicts are exactly the edits after a delete", "statement": "A delete/set conflict is reported iff in the time-ordered union some transaction on an entry follows a delete of that entry; each reported pair is such a delete and the first transaction following it.", "quantifier": "all pairs of replayable time-ordered logs", "why_tests_cant": "every interleaving", "anchors": ["txlogs/txlogs.go:Merge"]}
{"id": "C16", "title": "Logs considered identical are identical", "statement": "When Merge (or sync) takes its fast path (same length, same first and last timestamp) the two logs really contain the same transactions, so nothing is lost.", "quantifier": "all pairs of logs reachable by replicas that add, pull and push", "why_tests_cant": "needs a three-machine history", "anchors": ["txlogs/txlogs.go:Merge", "sync.go:sync"]}
{"id": "C17", "title": "Choosing 'delete' resolves every conflict", "statement": "If every reported conflict is answered with DiscardConflict, the next Merge completes: the deleted entries stay deleted, exactly the transactions after the delete of the same entry are dropped, everything else is kept.", "quantifier": "all pairs of replayable time-ordered logs", "why_tests_cant": "every conflict structure", "anchors": ["txlogs/txlogs.go:Merge", "txlogs/tx.go:DiscardConflict"]}
{"id": "C18", "title": "Choosing 'restore' brings the entry back", "statement": "If every reported conflict is answered with DiscardInitial, the next Merge completes with exactly the conflicting deletes removed, and the entries are visible again with all edits.", "quantifier": "all pairs of replayable time-ordered logs", "why_tests_cant": "every conflict structure", "anchors": ["txlogs/txlogs.go:Merge", "txlogs/tx.go:DiscardInitial"]}
{"id": "C19", "title": "Conflict resolution converges", "statement": "Passing the resolved conflicts back into Merge eventually completes, whatever the answers.", "quantifier": "all pairs of replayable time-ordered logs with globally unique entry ids, and all restore/delete answers", "why_tests_cant": "unbounded loop", "anchors": ["txlogs/txlogs.go:Merge", "merging.go:mergeLogs"]}
{"id": "C20", "title": "Answering the conflict prompt completes the sync", "statement": "When sync meets a delete/set conflict and the user answers r or d, the merge proceeds.", "quantifier": "all logs with a conflict and all input lines", "why_tests_cant": "unbounded prompt loop", "anchors": ["merging.go:mergeLogs"]}
{"id": "C21", "title": "Merge never crashes", "statement": "Merge returns a merged log or conflicts for every pair of logs and every list of conflicts it returned earlier, resolved in any way.", "quantifier": "all pairs of logs and resolutions", "why_tests_cant": "all inputs including empty and malformed logs", "anchors": ["txlogs/txlogs.go:Merge"]}
{"id": "C22", "title": "Unrelated files are never merged silently", "statement": "If two non-empty logs start at different timestamps, no merged log is produced unless the user explicitly confirmed.", "quantifier": "all pairs of non-empty logs and all answers", "why_tests_cant": "all inputs", "anchors": ["txlogs/txlogs.go:Merge", "merging.go:mergeLogs"]}
{"id": "C23", "title": "Entry names are unique and always present", "statement": "Starting from an empty file, after any sequence of entry operations (New, NewUser, NewSync, Rename, Set, DeleteKey, SetTwofactor, AddLabel, RemoveLabel, Delete on existing entries) every entry has a name and no two entries share one.", "quantifier": "all operation sequences and all map iteration orders", "why_tests_cant": "tests sample a handful of operation histories; the claim is about every history", "anchors": ["blobformat/blobs.go:New", "blobformat/blobs.go:Rename", "blobformat/blobs.go:Set"]}
{"id": "C24", "title": "Names stay unique across a sync", "statement": "After merging two files in which names are unique, names are unique, or the duplicates are renamed.", "quantifier": "all pairs of stores", "why_tests_cant": "needs two histories", "anchors": ["merging.go:mergeLogs", "blobformat/blobs.go:RenameDuplicates"]}
{"id": "C25", "title": "Protected keys cannot be set by hand", "statement": "Blobs.Set refuses name, updated, totp, salt, iv and mkey in any letter case and then changes nothing; it accepts every other key.", "quantifier": "all key strings (any bytes), entries and values", "why_tests_cant": "all strings including Unicode case folds", "anchors": ["blobformat/blobs.go:Set", "blobformat/constants.go:protectedKeys"]}
{"id": "C26", "title": "Protected keys cannot be deleted by hand", "statement": "Blobs.DeleteKey follows the same protection rules as Set.", "quantifier": "all key strings", "why_tests_cant": "all strings", "anchors": ["blobformat/blobs.go:DeleteKey"]}
{"id": "C27", "title": "A set changes one key of one entry", "statement": "Blobs.Set(U,K,V) on an existing entry makes U[K]=V and refreshes U's updated stamp; every other key of U and every other entry is unchanged; the previous value stays reachable in history. DeleteKey likewise.", "quantifier": "all stores, uuids, keys, values", "why_tests_cant": "frame condition over whole stores", "anchors": ["blobformat/blobs.go:Set", "blobformat/blobs.go:DeleteKey", "blobformat/blobs.go:touchUpdated"]}
{"id": "C28", "title": "Lookup by name is exact and deterministic", "statement": "FindByName(N) returns an entry iff some entry has name N, returns one whose name is N, and with unique names the answer does not depend on map iteration order.", "quantifier": "all stores, names and iteration orders", "why_tests_cant": "iteration order is random in Go", "anchors": ["blobformat/blobs.go:FindByName", "blobformat/blobs.go:FindUser"]}
{"id": "C29", "title": "Search returns exactly the matching entries", "statement": "Search(Q) returns, independent of iteration order, exactly the entries whose name fuzzily matches Q when Q has no slash, and otherwise those whose first slash-separated parts match Q's parts one by one; the empty query returns everything.", "quantifier": "all stores, queries and iteration orders", "why_tests_cant": "all strings", "anchors": ["blobformat/blobs.go:Search", "blobformat/blobs.go:allEntries"]}
{"id": "C30", "title": "Label search is exact", "statement": "SearchLabels(L...) returns exactly the entries that have all the given labels.", "quantifier": "all stores and label lists", "why_tests_cant": "duplicates in either list", "anchors": ["blobformat/blobs.go:SearchLabels"]}
{"id": "C31", "title": "Adding and removing labels", "statement": "AddLabel appends the label and keeps the others; RemoveLabel(i) removes exactly the i-th label and keeps the others in order.", "quantifier": "all stores, label lists and indices", "why_tests_cant": "all lengths and indices", "anchors": ["blobformat/blobs.go:AddLabel", "blobformat/blobs.go:RemoveLabel", "commands.go:deleteLabel"]}
{"id": "C32", "title": "RenameDuplicates makes names unique", "statement": "After RenameDuplicates no two entries share a name, and the returned map lists the renames made.", "quantifier": "all stores and iteration orders", "why_tests_cant": "all stores", "anchors": ["blobformat/blobs.go:RenameDuplicates"]}
{"id": "C33", "title": "The updated stamp is readable and current", "statement": "After any Set, New, Rename or DeleteKey, Updated() parses and equals the clock reading of that change.", "quantifier": "all int64 clock readings and stores", "why_tests_cant": "decimal round-trip over all of int64", "anchors": ["blobformat/blob.go:Updated", "blobformat/blob.go:getTimestamp", "blobformat/blobs.go:touchUpdated"]}
{"id": "C34", "title": "Query commands act on the intended entry", "statement": "A command's query resolves to an entry only if it is the sole match or its name is exactly the query; otherwise nothing is touched; the choice does not depend on iteration order when names are unique.", "quantifier": "all stores, queries and iteration orders", "why_tests_cant": "random iteration order", "anchors": ["uihelpers.go:findOne"]}
{"id": "C35", "title": "A new sync entry always gets a fresh name", "statement": "NewSync terminates for every store and creates an entry named sync/<kind> followed by as few 1s as necessary.", "quantifier": "all stores and kinds", "why_tests_cant": "unbounded search loop", "anchors": ["blobformat/blobs.go:NewSync"]}
{"id": "C36", "title": "User entries are recognised exactly", "statement": "Users() returns exactly the entries whose name starts with user/, and SplitUsername recovers the username from exactly those names.", "quantifier": "all stores and names", "why_tests_cant": "all strings", "anchors": ["blobformat/blobs.go:Users", "blobformat/blobs.go:SplitUsername", "blobformat/blobs.go:IsUserEntry"]}
{"id": "C37", "title": "Fuzzy matching is subsequence matching", "statement": "Match(s,q) is true iff q's characters occur in s in order, where a character of q matches itself or a character whose lower case it is; it never crashes.", "quantifier": "all byte strings s and q, all Unicode", "why_tests_cant": "all strings including invalid UTF-8", "anchors": ["fuzzy/fuzzy.go:Match"]}
{"id": "C38", "title": "Padding round-trips", "statement": "For every block size the code uses, Unpad(Pad(b,k)) = b, the padded length is a multiple of k and at least one byte of padding is added; Unpad never crashes, and accepts only well-formed padding.", "quantifier": "all byte strings b, all k from 1 to 255", "why_tests_cant": "all lengths and contents", "anchors": ["pkcs7/pad.go:Pad", "pkcs7/pad.go:Unpad"]}
{"id": "C39", "title": "Single-user files open again", "statement": "Decrypt(Encrypt(p,pt)) with the passphrase (or the key and salt) the key was derived from returns exactly pt, the version and the same key and salt.", "quantifier": "all plaintexts, passphrases, salts, IVs; every correct block cipher", "why_tests_cant": "all lengths and contents", "anchors": ["crypt/crypto.go:Encrypt", "crypt/crypto.go:Decrypt", "crypt/crypto_v1.go:encryptV1Single", "crypt/crypto_v1.go:decryptV1Single"]}
{"id": "C40", "title": "Multi-user files open for every user", "statement": "For a multi-user file, every user whose stored master key was made by EncryptMasterKey with the key derived from their passphrase can decrypt it and gets exactly the plaintext, the master key and the user table back.", "quantifier": "all user tables of up to 9999 users, every user in them, all plaintexts", "why_tests_cant": "all user counts and positions", "anchors": ["crypt/crypto_v1.go:encryptV1Multi", "crypt/crypto_v1.go:decryptV1Multi", "crypt/crypto_v1.go:encryptMasterKeyV1"]}
{"id": "C41", "title": "Tampering with the header is detected", "statement": "If the file header (version, user table entries of other users, IVs, salts) of a genuine file is altered and Decrypt still succeeds with the same body plaintext, a SHA-512 collision has been exhibited.", "quantifier": "all files, alterations and users", "why_tests_cant": "all byte positions and values", "anchors": ["crypt/crypto_v1.go:decryptV1Multi", "crypt/crypto_v1.go:decryptV1Single"]}
{"id": "C42", "title": "An unknown user gets nothing", "statement": "Decrypt with a user name that is not in the file never returns a plaintext (unless SHA-512 collides) and reports the failure as an error, not a crash.", "quantifier": "all files, names and passphrases", "why_tests_cant": "all inputs", "anchors": ["crypt/crypto_v1.go:decryptV1Multi"]}
{"id": "C43", "title": "Opening a damaged or foreign file is an error, never a crash", "statement": "For every byte string, Decrypt and IsMultiUser return a result or an error.", "quantifier": "all byte strings, passphrases and users", "why_tests_cant": "all inputs, including truncated files and wrong passphrases", "anchors": ["crypt/crypto.go:Decrypt", "crypt/crypto.go:IsMultiUser", "crypt/crypto.go:verifyMagic", "crypt/crypto_v1.go:decryptV1Single"]}
{"id": "C44", "title": "No passphrase, no access", "statement": "Without a matching key, Decrypt with an empty passphrase never returns plaintext: it reports ErrWrongPassphrase.", "quantifier": "all files and key/salt pairs that do not match", "why_tests_cant": "all inputs", "anchors": ["crypt/crypto_v1.go:decryptV1Single", "crypt/crypto_v1.go:decryptV1Multi"]}
{"id": "C45", "title": "The user prompt agrees with the file", "statement": "IsMultiUser is true for exactly the files Encrypt wrote in multi-user mode, and Decrypt answers ErrNeedUser exactly for those when no user is given.", "quantifier": "all parameters and plaintexts", "why_tests_cant": "all inputs", "anchors": ["crypt/crypto.go:IsMultiUser", "crypt/crypto_v1.go:decryptV1"]}
{"id": "C46", "title": "Bad encryption parameters are refused", "statement": "Encrypt with parameters of wrong sizes or counts returns an error, and never crashes or writes a malformed file.", "quantifier": "all Params values", "why_tests_cant": "all shapes of the parameter record", "anchors": ["crypt/params.go:validate", "crypt/crypto_v1.go:encryptV1Multi"]}
{"id": "C47", "title": "Generated passwords meet the request", "statement": "genPassword returns a password of exactly the requested length with at least the requested number of characters of each class and none from a class that is off, for every value of the random bytes; it reports impossibility exactly when the minima exceed the length or all classes are off.", "quantifier": "all lengths up to 255, all class settings, all random bytes", "why_tests_cant": "all entropy values", "anchors": ["passwd_gen.go:genPassword"]}
{"id": "C48", "title": "Password generation never crashes", "statement": "genPassword returns a password or an error for every length and class setting.", "quantifier": "all integer arguments and random bytes", "why_tests_cant": "boundary lengths", "anchors": ["passwd_gen.go:genPassword", "uihelpers.go:getPassword"]}
{"id": "C49", "title": "Saving and loading preserves the store", "statement": "New(Save(db)) yields the same version, snapshot and log, for all stores whose strings are valid UTF-8.", "quantifier": "all stores, all strings of any length and content", "why_tests_cant": "all strings, escapes and numbers", "anchors": ["txlogs/txlogs.go:Save", "txlogs/txlogs.go:New", "txlogs/txlogs.go:NewLog"]}
{"id": "C50", "title": "Saving and loading preserves every byte of every value", "statement": "The same for arbitrary byte strings (e.g. a password typed in a Latin-1 terminal).", "quantifier": "all byte strings", "why_tests_cant": "all strings", "anchors": ["txlogs/txlogs.go:Save", "txlogs/txlogs.go:New"]}
{"id": "C51", "title": "What was saved is what is loaded", "statement": "After saveBlob, loadBlob with the same user and passphrase shows the same entries, history and credentials, in single-user mode and for every user of a multi-user file.", "quantifier": "all stores and all users", "why_tests_cant": "composition of store, JSON and encryption over all values", "anchors": ["main.go:saveBlob", "main.go:loadBlob", "uicontext.go:makeParams"]}
{"id": "C52", "title": "adduser, rekey and passwd keep everybody's access", "statement": "After adduser, rekey or passwd every user of the file can still open it after the next save: the target with the new passphrase, everybody else with the old one.", "quantifier": "all multi-user stores, users and passphrases", "why_tests_cant": "all user tables", "anchors": ["commands.go:adduser", "commands.go:rekey", "commands.go:passwd"]}
{"id": "C53", "title": "rekeyall leaves the file openable", "statement": "After rekeyall and save, every user can open the file with the password printed for them.", "quantifier": "all multi-user stores", "why_tests_cant": "all user tables", "anchors": ["commands.go:rekeyAll"]}
{"id": "C54", "title": "Deleting an entry does exactly that", "statement": "rm <name> after confirmation removes exactly that entry; it changes the encryption mode only when the last user deletes themselves.", "quantifier": "all stores, names and users", "why_tests_cant": "all names", "anchors": ["commands.go:deleteEntry", "blobformat/blobs.go:SplitUsername"]}
{"id": "C55", "title": "Read-only mode shows the past and writes nothing", "statement": "Opening with --time T shows exactly the state after the leading transactions with time <= T, no command changes the store, and the file is never written.", "quantifier": "all logs, times and command sequences", "why_tests_cant": "tests sample a handful of operation histories; the claim is about every history", "anchors": ["main.go:loadBlob", "main.go:saveBlob", "repl.go:run"]}
{"id": "C56", "title": "A crash never loses the file", "statement": "At every crash point the file on disk is the previous version or the new one.", "quantifier": "all crash points during a session and during the save", "why_tests_cant": "crash points", "anchors": ["main.go:saveBlob"]}
{"id": "C57", "title": "Export contains everything", "statement": "The exported CSV has one row per existing entry and one column per key used, with exactly the current values.", "quantifier": "all stores", "why_tests_cant": "all stores, including ones saved with a stale snapshot", "anchors": ["export.go:export"]}
{"id": "C58", "title": "Import brings in exactly the records", "statement": "lpassimport creates one entry per data record with a unique name and the record's values.", "quantifier": "all CSV record lists and stores", "why_tests_cant": "all inputs", "anchors": ["import.go:importLastpass"]}
{"id": "C59", "title": "A known host with a changed key is refused", "statement": "The ssh host check accepts without asking iff the first known line for that hostname has the same key type and hash; a different key or type is refused without asking; an unknown host is accepted and remembered only after y/Y.", "quantifier": "all known-hosts texts, hostnames, keys and answers", "why_tests_cant": "all strings", "anchors": ["sync.go:callback", "sync.go:saveHosts"]}
{"id": "C60", "title": "A sync reaches every remote", "statement": "After a sync with push, every remote that could be pulled (or did not exist) holds the merged log; remotes that failed to pull or decrypt are not overwritten.", "quantifier": "all numbers of remotes and all pull outcomes", "why_tests_cant": "all combinations", "anchors": ["sync.go:sync"]}
{"id": "C61", "title": "An aborted sync changes nothing", "statement": "If merging is refused or fails, credentials and log are as before and nothing is pushed.", "quantifier": "all remotes and inputs", "why_tests_cant": "all failure points", "anchors": ["sync.go:sync", "merging.go:mergeBlobs"]}
{"id": "C62", "title": "SCP transfer is exact", "statement": "readFile returns exactly the bytes a conforming scp source sends, for every content; sendFile's messages make a conforming sink store exactly the bytes; every malformed header is an error, never a crash.", "quantifier": "all contents, names and server byte streams", "why_tests_cant": "all byte streams", "anchors": ["scpsync/scpsync.go:readFile", "scpsync/scpsync.go:sendFile", "scpsync/scpsync.go:readResponse"]}
{"id": "C63", "title": "Pinentry passwords are decoded exactly", "statement": "A password escaped as the Assuan protocol demands is recovered exactly, including ones containing percent signs and escape look-alikes.", "quantifier": "all byte strings", "why_tests_cant": "all strings", "anchors": ["pinentry/pinentry.go:Password"]}
{"id": "C64", "title": "set stores exactly the text typed", "statement": "For the line `set <query> <key> <text>`, the value stored is exactly <text>, with inner spacing preserved.", "quantifier": "all queries and keys without blanks and all texts", "why_tests_cant": "all strings", "anchors": ["repl.go:run", "repl.go:replCmds"]}
{"id": "C65", "title": "The password dialogue never crashes and returns what it showed", "statement": "Whatever lines are typed, getPassword returns the password last displayed (y), the one entered twice (m) or an error.", "quantifier": "all input line sequences and random bytes", "why_tests_cant": "unbounded dialogues", "anchors": ["uihelpers.go:getPassword"]}
{"id": "C66", "title": "Multi-line input", "statement": "promptMultiline returns the typed lines joined by newlines, up to the first '.', end of input or two empty lines.", "quantifier": "all input line sequences", "why_tests_cant": "unbounded input", "anchors": ["uihelpers.go:promptMultiline"]}
{"id": "C67", "title": "No acceptable password is ruled out", "statement": "Every password that meets the request can be the result of genPassword for some value of the random bytes.", "quantifier": "all lengths up to 255, all class settings, all passwords", "why_tests_cant": "all passwords", "anchors": ["passwd_gen.go:genPassword"]}
{"id": "C68", "title": "The small prompts return what they announce", "statement": "getString returns the first non-empty line, getMenuChoice the number typed minus one within the menu, getInt a number within the announced range.", "quantifier": "all input line sequences", "why_tests_cant": "unbounded input", "anchors": ["uihelpers.go:getString", "uihelpers.go:getMenuChoice", "uihelpers.go:getInt"]}
{"id": "C69", "title": "The store stays in good order whatever is typed", "statement": "After any sequence of command lines, whether the commands succeed or fail, no transaction is open, the log replays, every entry has a name and no two entries have the same.", "quantifier": "all command lines, answers, stores and iteration orders", "why_tests_cant": "all sessions", "anchors": ["repl.go:run", "repl.go:replCmds", "commands.go"]}
{"id": "C70", "title": "Commands only append to the log", "statement": "Every command other than sync leaves the transactions already in the log as they are and only appends, also when it fails.", "quantifier": "all commands, answers and stores", "why_tests_cant": "all sessions", "anchors": ["commands.go", "txlogs/txlogs.go:Do"]}
{"id": "C71", "title": "Additions are complete or leave nothing", "statement": "add and addsync create one entry with exactly what was typed under a free name; if they fail at any prompt the store is as before.", "quantifier": "all stores, names and answers", "why_tests_cant": "all answers and the prompt at which they stop", "anchors": ["commands.go:addNew", "commands.go:addSync", "commands.go:addSCPEntry"]}
{"id": "C72", "title": "A command changes the chosen entry, and only as told", "statement": "set, rmk, mv, edit, label and rmlabel change exactly the named key of the entry the query chooses (and its time stamp), nothing else, and report what they did.", "quantifier": "all stores, queries, keys and values", "why_tests_cant": "all stores", "anchors": ["commands.go:set", "commands.go:deleteKey", "commands.go:rename", "commands.go:edit", "commands.go:addLabels", "commands.go:deleteLabel"]}
{"id": "C73", "title": "What is shown is what is stored", "statement": "get gives the stored value, show gives every key of the entry, ls and labels list exactly the matching names in order, and none of them crashes.", "quantifier": "all stores and queries", "why_tests_cant": "all stores", "anchors": ["commands.go:get", "commands.go:show", "commands.go:list", "commands.go:listByLabels"]}
{"id": "C74", "title": "Breaking off at a prompt only breaks off the command", "statement": "Ctrl-D at a prompt inside a command returns to the command line with the store unchanged by that command; earlier changes of the session are kept.", "quantifier": "all commands and prompts", "why_tests_cant": "all sessions", "anchors": ["commands.go:addNewInterruptible", "commands.go:addSyncInterruptible", "repl.go:run", "main.go:main"]}
{"id": "C75", "title": "edit leaves no readable copy of a value", "statement": "When the temporary file of edit is removed its contents have been overwritten completely.", "quantifier": "all values and editor behaviours", "why_tests_cant": "editor behaviours", "anchors": ["commands.go:edit"]}
{"id": "C76", "title": "After any command the store can be saved", "statement": "No command that is accepted leaves the session in a state in which saving fails.", "quantifier": "all commands and stores", "why_tests_cant": "all sessions", "anchors": ["commands.go", "main.go:saveBlob", "main.go:makeParams"]}
{"id": "C77", "title": "A failure shows in the exit status", "statement": "If the file could not be opened, synchronised or saved the program exits with a non-zero status.", "quantifier": "all errors", "why_tests_cant": "rare errors", "anchors": ["main.go:main"]}
{"id": "C78", "title": "A line does what its words say", "statement": "A typed line runs exactly the command its first word names, with its other words as the arguments (the context entry standing in for a left-out query), in a read-only session only commands that read; any other line runs nothing.", "quantifier": "all lines, context entries and sessions", "why_tests_cant": "the space of lines is infinite", "anchors": ["repl.go:run", "repl.go:replCmds", "repl.go:getCopy", "repl.go:quickCopy"]}
{"id": "C79", "title": "The command loop takes one line after the other", "statement": "The command loop reads the input in order and no line twice; a line that is no command does nothing; exit and the end of the input end the session without an error, any other failure to read or of a command ends it with that error; all other commands are followed by the next line.", "quantifier": "all inputs, sessions and commands", "why_tests_cant": "all inputs", "anchors": ["repl.go:run"]}
{"id": "C80", "title": "What was in the store when the session ended is in the file", "statement": "A session ended by exit or the end of the input writes a file which, opened with the passphrase in force, holds exactly the store as it was at the end; the log of the store at the start is the beginning of it.", "quantifier": "all inputs and stores", "why_tests_cant": "all sessions", "anchors": ["main.go:main", "repl.go:run", "main.go:saveBlob", "main.go:loadBlob"]}
{"id": "C81", "title": "Text that is typed is stored as text", "statement": "If everything typed is valid UTF-8, every command stores only valid UTF-8: cutting lines into words, labels and names never cuts through a character, and generated passwords are ASCII. (JSON replaces invalid bytes, so this is what makes saved values come back unchanged.)", "quantifier": "all lines, commands, sessions and stores of text", "why_tests_cant": "all UTF-8 input", "anchors": ["repl.go:run", "commands.go", "uihelpers.go", "passwd_gen.go:genPassword", "blobformat/blobs.go"]}
{"id": "C82", "title": "A remote that is added is the one that is dialled", "statement": "The url that addsync stores is read back as the user, password, host, port and path that were typed, so that exactly this host is dialled, as this user and for this path; every remote that is added is synced; reading the url of a remote never crashes.", "quantifier": "all users, passwords, hosts, ports, paths and urls", "why_tests_cant": "all byte strings", "anchors": ["commands.go:addSCPEntry", "commands.go:addFileEntry", "sync.go:sshConfig", "sync.go:collectSyncs"]}
{"id": "C83", "title": "Nothing is given to a host that is not trusted, and files arrive as they are", "statement": "Over ssh, password, key, command and payload are only given to the host of the entry after it showed the key that is known for it or the user accepted its key; what is pulled is what the server's scp sent, what is pushed is the payload as one file; a host the user accepted is remembered; the command run is scp with the path.", "quantifier": "all servers, entries, inputs and payloads", "why_tests_cant": "arbitrary servers", "anchors": ["sync.go:sshPull", "sync.go:sshPush", "sync.go:sshConfig", "scpsync/scpsync.go:Recv", "scpsync/scpsync.go:Send"]}
{"id": "C84", "title": "A session that syncs is saved as it ended", "statement": "With sync modelled instead of assumed: a session in which sync runs, as a command or automatically at start and end, reads its input in order, stays replayable and text whatever the remotes hold, and ends in a file that opens with the passphrase then in force and holds exactly the store at the end.", "quantifier": "all inputs, stores, remotes and outcomes of transfers", "why_tests_cant": "all remotes and sessions", "anchors": ["main.go:main", "repl.go:run", "sync.go:sync", "merging.go:mergeLogs", "main.go:saveBlob"]}
{"id": "C85", "title": "A time that is given is the time that is shown", "statement": "--time is read as the UTC time it writes (YYYY-MM-DD HH:mm:ss) and nothing else is accepted; the file then shows exactly the transactions up to that instant and is not written, whatever is typed.", "quantifier": "all flag texts, files and inputs", "why_tests_cant": "all texts and times", "anchors": ["cli.go:parseCli", "main.go:main", "main.go:loadBlob"]}
{"id": "C86", "title": "A subcommand does its task and nothing else", "statement": "The file opened is the one given, else that of $BPASS, else the default; version and gen do not touch the store; export prints the table of the store and import adds exactly the records, and the file written opens again; a failed run leaves the file as it was and tells so by its status.", "quantifier": "all flags, files, inputs and environments", "why_tests_cant": "all runs of the program", "anchors": ["main.go:main", "cli.go:parseCli", "export.go:exportBlob", "import.go:importLastpass", "main.go:loadBlob", "main.go:saveBlob"]}
{"id": "C87", "title": "The path in the prompt is the path of the file, shortened", "statement": "shortPath cuts each directory to its first character and keeps the file's name.", "quantifier": "all paths", "why_tests_cant": "all strings", "anchors": ["main.go:shortPath"]}
{"id": "C88", "title": "Tab completion offers the entries and changes nothing", "statement": "Tab offers the names of all entries in order, never changes the store or ends the program, and a line completed to a command, an entry and a key is that command on that entry and key; every command is offered.", "quantifier": "all stores, names and commands", "why_tests_cant": "all stores", "anchors": ["readline.go:entryCompleter", "readline.go:readlineAutocompleter"]}
{"id": "C89", "title": "On Windows the line typed is the line read", "statement": "A hidden line is what was typed, character by character, Backspace taking back the last one; a visible line is the line without its end; the end of the input ends the session as it does elsewhere.", "quantifier": "all keys and all ways they arrive in", "why_tests_cant": "all sequences of reads", "anchors": ["noreadline.go:LineHidden", "noreadline.go:Line"]}
{"id": "C90", "title": "Each question is shown with its prompt, and programs are started as asked", "statement": "Every line is asked for with the prompt given and end of input and interrupts are told apart; the editor is $EDITOR or the first known one that is installed, and it and the browser get the file or the url as their argument, unchanged.", "quantifier": "all prompts, environments, files and urls", "why_tests_cant": "all strings", "anchors": ["readline.go:Line", "osutil/osutil_linux.go:RunEditor", "osutil/osutil_linux.go:OpenURL", "osutil/osutil_windows.go:RunEditor", "osutil/osutil_darwin.go:RunEditor"]}
{"id": "C91", "title": "Two factor codes are those of the key given", "statement": "A two factor key given bare or as an url is stored so that get shows the six digit code of RFC 6238 for that key and the present half minute; texts that are no base32 give an error instead of a code.", "quantifier": "all keys, uuids, urls and times (HMAC-SHA1 is a parameter)", "why_tests_cant": "all strings and times", "anchors": ["commands.go:set", "blobformat/blobs.go:SetTwofactor", "blobformat/blob.go:TwoFactor"]}
{"id": "C92", "title": "The url of an entry is a link, and openurl opens it", "statement": "set takes a text for the url exactly if it is a link (a scheme, a colon, and a path from the root or a host and a path); openurl opens the link of the entry chosen, passing it to the browser as its only argument and never as an option, and changes nothing.", "quantifier": "all texts, entries and queries", "why_tests_cant": "all strings", "anchors": ["commands.go:set", "commands.go:openurl", "osutil/osutil_linux.go:OpenURL"]}
{"id": "C93", "title": "The project's own tests hold for all that they leave open", "statement": "What the project's tests check of logs, merges, matching, padding, passwords, parameters and encryption on one run holds for every clock, uuid, salt, IV and random byte, and for every cipher suite that decrypts what it encrypts.", "quantifier": "all times, uuids, random bytes and primitives", "why_tests_cant": "all values the tests leave open", "anchors": ["txlogs/txlogs_test.go", "fuzzy/fuzzy_test.go", "pkcs7/pad_test.go", "passwd_gen_test.go", "crypt/params_test.go", "crypt/crypto_test.go"]}
{"id": "C94", "title": "The help names the commands there are, with what they need", "statement": "Every command of the loop is in one of the help texts and every command in them exists; it runs with the arguments the help gives for it and is answered with a message about the syntax if one that is needed is missing; inside an entry the query is left out, as the help says.", "quantifier": "all commands, arguments and entries", "why_tests_cant": "all words", "anchors": ["repl.go:replHelp", "repl.go:syncHelp", "repl.go:usersHelp", "repl.go:otherHelp", "repl.go:replCmds"]}
{"id": "C95", "title": "Only commands are remembered as lines to recall", "statement": "The lines kept for recalling are, in order, those of valid commands that came to their end; passphrases and other answers to questions, unknown and refused lines are not kept.", "quantifier": "all sessions and inputs", "why_tests_cant": "all inputs", "anchors": ["repl.go:run", "readline.go:AddHistory", "readline.go:readlineConfig"]}
{"id": "C96", "title": "Two runs on one file keep each other's changes", "statement": "When the program is run twice on one file, what each of the two saved is in the file at the end, whether the second was started after the first had ended or before.", "quantifier": "all files, runs and inputs", "why_tests_cant": "all inputs", "anchors": ["main.go:run", "main.go:loadBlob", "main.go:saveBlob"]}
{"id": "C97", "title": "What show prints is aligned and can be read in one way only", "statement": "show prints every key on a line of its own with all values in one column, a value of several lines below its key with all its lines, and two entries that differ are never printed alike; the passwords printed by rekeyall are in one column.", "quantifier": "all entries, orders of map iteration and colours off", "why_tests_cant": "all entries", "anchors": ["commands.go:show", "commands.go:showKeyValue", "commands.go:showHidden", "commands.go:showMultiline", "commands.go:rekeyAll"]}
{"id": "C98", "title": "Values are given out only by the commands for it", "statement": "Only get, show, dump, dumpall, rekeyall, adduser and set print values; cp, user, pass, email, totp and login bring them to the clipboard only; all other commands show names and the url that is opened, and a passphrase typed without echo is never printed. The question about a sync conflict tells what happened to the deleted entry.", "quantifier": "all commands, sessions, stores and answers", "why_tests_cant": "all inputs", "anchors": ["repl.go:run", "commands.go:get", "commands.go:login", "commands.go:set", "merging.go:mergeLogs"]}
{"id": "C99", "title": "Machines that sync through one file come to agree", "statement": "Any number of machines that start with the same store, change it and sync with one shared file in any order lose nothing, are asked nothing, and all have the same log, with everything recorded anywhere, after each has synced twice.", "quantifier": "all numbers of machines, histories and orders of syncs", "why_tests_cant": "all histories", "anchors": ["sync.go:sync", "merging.go:mergeLogs", "txlogs/txlogs.go:Merge"]}
