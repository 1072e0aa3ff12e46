# Formal model of MashMB/1pass

Rocq (Coq 8.16.1) model of the Go program in /repo, built from /verif/rocq.

## Layers

* Library layer: `Base`, `Utf8`, `GoStrings`, `Base64`, `Float64`, `Json`, `Path`,
  `Civil`, `GoTime`: the parts of the Go standard library whose behaviour the properties depend
  on, written out as computable functions (byte strings are `list ascii`).
  `Crypto`, `Fs`, `World`: primitives, file system and process environment.  `RealCrypto`:
  the cryptographic algorithms themselves.
* Program layer: `Domain`, `KeyService`, `Repos`, `ItemService`, `Session`, `Config`,
  `Updater`, `Timed`, `Cli`, `Gui`, `Shared` (with others): the program itself, function by function, every definition
  citing the file and lines it models.
* `Spec_*`: small independent specifications (OPVault writer, JSON printer, base64
  encoder, calendar, query predicates, screen contents, the list of releases).  They do not use the helper
  functions of the program layer; a reader of a theorem needs only these and the API of
  the program layer.
* `*Proof`, `CliEvents`, `GuiRun`, `GuiWorld`, `GuiCursor`, `JsonPrint`: lemmas.  `Toy`, `ToyYaml`: concrete
  instances of the oracles, used only in the examples that show hypotheses can be met.
* `Properties_*`: the theorems, named after the property, each followed by
  `Print Assumptions` and accompanied by a concrete case.

A Go panic, `log.Fatalln` and `os.Exit` are explicit outcomes (`Panic`, `Exit n`).  Go
errors are values.  Randomness (map iteration, unstable sort), the network, the clock, I/O
faults and third-party code are oracles over which the theorems quantify universally.

If a property is false of the program, the faithful model refutes it: there is a theorem
`..._refuted` with a witness, and the strongest true version is proved beside it
(`..._partial`).  MANIFEST.json calls such a property "partial".

## Trusted base

1. **Coq's kernel** (8.16.1), also through `coqchk`.  `vm_compute` is used in examples and
   in some finite case distinctions; the kernel rechecks them without the VM in `coqchk`.
2. **Axioms: none.**  `Print Assumptions` says "Closed under the global context" for every
   theorem of `Properties_*` (all theorems listed in MANIFEST.json).  The libraries
   that are loaded bring along seven axioms of the standard distribution that no theorem
   uses: `Coq.ssr.ssrunder.Under_rel.{Over_rel, Under_rel_from_rel, over_rel,
   over_rel_done, Under_rel, Under_relE, under_rel_done}`.
3. **That the model says what the code does.**  The model was written by reading /repo and
   the documented behaviour of Go and of the libraries; the program was not executed.  The
   model was: `validation/sample.py` writes a Coq file with the sample vault of /repo
   (assets/onepassword_data, password "freddy") and evaluates the model on it with the
   algorithms of RealCrypto.v.  The answers agree with what the tests in /repo expect
   (27 items, 2 in the trash, 10 logins from "Bank of America" to "YouTube", 3 titles with "ap",
   the named items).  This is evidence, not part of the build.
4. **Hypotheses of the theorems about parts that are not in /repo.**  They are ordinary
   premises, visible in each statement, and each has a proved instance:
   * `crypto_ok` (Crypto.v): output sizes of AES, HMAC-SHA256, SHA-512, PBKDF2, MD5, and that AES
     decryption inverts encryption.  Nothing about secrecy or collisions is assumed; where a
     property depends on an unforgeable MAC, the statement says "does not authenticate".
     Instances: `real_crypto_ok`, the algorithms of the standards; `toy_crypto_ok` for examples
     that compute.
   * `unicode_ok` (GoStrings.v): laws of the Unicode case tables for runes >= 128 (ASCII is
     concrete).  Instance: `latin1`.
   * `oracles_ok` (Repos.v): Go's map iteration is some permutation, `sort.Slice` returns
     some sorted permutation.  Instance: in `Toy`.
   * `yaml_ok` (Config.v): go-yaml reads back what it wrote, top-level keys are
     distinct, an empty text is nil.  Instance: `ToyYaml`, a small concrete YAML codec.
   * `wf_fs` (WorldProof.v): the parent of every entry of the file system is a directory.

### Modelled

| /repo | model |
|---|---|
| 1pass-core/core/domain (all files) | Domain.v, Civil.v, Float64.v |
| 1pass-core/core/service/keyservice.go | KeyService.v, Crypto.v (CBC, padding, opdata01) |
| 1pass-core/core/service/itemservice.go | ItemService.v |
| 1pass-core/core/service/vaultservice.go, facade/vaultfacade.go | Session.v |
| 1pass-core/core/service/configservice.go, facade/configfacade.go | Config.v (they only forward) |
| 1pass-core/core/service/updateservice.go, facade/updatefacade.go | Updater.v |
| 1pass-parse/repo/file/itemrepo.go, profilerepo.go | Repos.v on Json.v, Path.v, Fs.v |
| 1pass-parse/repo/file/configrepo.go | Config.v |
| 1pass-parse/util/pbkdf2 | one call of the oracle `pbkdf2` |
| 1pass-up/component/github/updater.go | Updater.v on World.v; httpClient and waiting in Timed.v |
| 1pass-term/control/cobra/clicontrol.go | Cli.v |
| 1pass-app/cli/cobra.go, 1pass-app/main.go | Cli.v (process), Args.v (command line, with cobra v1.1.3 and pflag v1.0.5) |
| 1pass-app/gui (all widgets), 1pass-term/control/gocui/guicontrol.go | Gui.v; gocui's main loop in Batch.v, the goroutine of versionwidget.go in Conc.v |
| 1pass-core/port, facade.go, service.go | interfaces: no behaviour of their own |

Of the Go standard library and of third-party code the following is written out:
UTF-8 coding, the used functions of `strings`, `strconv` and `fmt.Scanln`, base64, the JSON
decoder (with its number, string-escape and surrogate rules and its nesting limit),
decimal to float64 conversion with correct rounding and `fmt.Sprint` of a float64,
`filepath.Clean/Join/Glob/Match`, `time.Unix(...).Format` in the proleptic Gregorian
calendar, CBC, hexadecimal, views, cursors and origins of gocui, go-pretty's centring (Center.v).

### Not modelled, and simplifications

* YAML, tar and gzip, HTTP and TLS, go-pretty's table
  rendering, termbox drawing, cobra's texts, log formatting: oracles (YAML, tar,
  network, rendering) or left out.
* `Fs`: no symbolic or hard links, no disk quota.  Other programs that write
  files at the same time are in `Shared` only (between the stages of an update, and between reading the
  settings and running the command); everywhere else the program is alone.  Every
  file-system call of the updater and of the settings file can fail through the list of faults
  in the world; a crash between two system calls is covered because every theorem about
  intermediate states speaks of the trace.  Permission to read vault files is an oracle.
* `Updater` computes the time since the last check exactly; that Go's 64-bit arithmetic
  (`GoTime`) gives the same decision for every saved number is C59_clock_arithmetic.
* `http.Get` is one step that returns a body or fails; redirects are inside the oracle.  How long it
  takes is in `Timed` only: time passes nowhere but in `http.Get` and in reading its body.
* Standard input is a finite sequence of runes followed by end of file.  `fmt.Scanln`'s
  unread buffer after an error is modelled; terminal line editing is not.
* `Gui`: a view is its inner size, text, cursor and origin; colours, titles, frames and
  overlap are left out, and text is not interpreted for escape sequences.  gocui's editor is
  an oracle: typing turns the text of the prompt into any text.  In `Gui` layout runs after every single
  event; `Batch` models gocui's main loop (all waiting events, then layout and drawing) and C104 relates
  the two.  The update check of the GUI, a goroutine in the code, is one atomic step at any
  time after the start.  `Conc` models the goroutine step by step; C103 proves that the atomic
  step gives the same runs.  Each step of `Conc` (a system call, one write to the view) is still
  atomic: data races between them are not modelled.
* Memory is not modelled below Go values: "forgets" in C20 and C74 means that no
  reachable variable holds the value, not that bytes are overwritten.
* int is 64 bits; sizes of strings and slices are unbounded.

## Plan per property

* **C01** Category lookup by code is exact and total. Domain.v registry as a list of (code,name); FromCode as the loop; characterised by membership in an independently written table; induction over the registry.
* **C02** Category lookup by name ignores case and nothing else. ToLower modelled rune by rune (UTF-8 decoding concrete, non-ASCII case table an oracle record); iff-characterisation by case analysis over the registry.
* **C03** Listing categories does not change what lookups mean. The registry order is part of the state; lookups proved invariant under Permutation; sorted listing proved unique because codes are distinct.
* **C04** Yes/no answers are recognised exactly. LogicVal registry loop; iff with the four accepted strings plus non-ASCII runes that lower to y/n (law: none).
* **C05** Base64 text decodes to the bytes that were encoded. Concrete RFC 4648 decoder following encoding/base64 (Base64.v), separate encoder in the spec; induction by blocks of 3.
* **C06** opdata round trip. CBC over an abstract block cipher (record of primitives with laws), opdata writer in the spec; induction on blocks.
* **C07** Nothing is decrypted before authentication. DecodeOpdata returns also the buffer; theorem on its result and buffer.
* **C08** Malformed ciphertext is reported as an error, never as a crash. Expected to be FALSE: exact panic characterisation (iff) and refutation.
* **C09** Derived keys always have the right size and are disjoint halves. Length lemmas for every path that returns keys.
* **C10** The right password always opens the vault. Session.v step machine; spec OPVault profile writer; composition of C05, C06, C35.
* **C11** A password that does not authenticate is refused. Inversion of Unlock: success implies both MACs verify.
* **C12** A refused unlock changes nothing. Step machine: failed Unlock leaves the query-relevant state equal.
* **C13** Item keys round trip. CBC round trip through base64 and ItemKeys.
* **C14** Item key blobs are authenticated. Expected FALSE: decoding proved independent of the MAC; refutation.
* **C15** Stored item metadata is authenticated. Expected FALSE: decoding proved independent of hmac; refutation by re-categorising an item.
* **C16** An item is decoded to what was stored in it. OPVault item writer in the spec; decode(write(x)) = x.
* **C17** Unauthenticated content is never shown. DecodeItems with a blob that fails authentication equals DecodeItems with an empty document.
* **C18** No item is lost, invented or merged. Decoded list is in bijection with the stored entries of a known category under every iteration order.
* **C19** One damaged item does not take the others down. Expected FALSE: refutation plus the exact condition under which decoding does not crash.
* **C20** Lock forgets everything. Invariant over arbitrary operation sequences of the facade.
* **C21** A locked vault shows no items. Invariant over arbitrary operation sequences.
* **C22** After a successful unlock the queries describe that vault. Expected FALSE in general (cached profile, StoreItems ignored): refutations; positive version for a fresh process and for Lock-before-Unlock on the same vault.
* **C23** Queries are read-only. Queries return the state unchanged.
* **C24** Listing returns exactly the matching items. In-characterisation of the result of the filter/sort pipeline, for any sorting oracle.
* **C25** Listings are sorted and reproducible. Sortedness plus uniqueness of the sorted key sequence under Permutation.
* **C26** Counts agree with listings. Counting lemmas by induction.
* **C27** Item lookup by uid is exact and order independent. uid uniqueness from the JSON map; permutation invariance.
* **C28** Every listed row can be opened. Composition of C24 and C27.
* **C29** Search is case-insensitive. ToLower of two texts equal implies equal listings; rune-wise case changes.
* **C30** All band files are read. Concrete file system, Glob, JSON parser; splice of printed band objects parses to the concatenation.
* **C31** A vault with an empty band file can be read. Expected FALSE: refutation; proved positive when no band is empty is C30.
* **C32** Unrelated files in the vault directory are ignored. Glob result depends only on names matched by band_*.js.
* **C33** The vault may live at any path. Expected FALSE for glob metacharacters: refutation; positive for paths without metacharacters.
* **C34** A trailing newline in vault files is harmless. Expected FALSE: refutation.
* **C35** JSON text decodes to the value that was encoded. Concrete JSON parser; printer with arbitrary white space in the spec; round trip by nested induction.
* **C36** Validate accepts exactly vault directories. Decision procedure of ValidateVault against a file-system predicate.
* **C37** Every stored field is shown. Expected FALSE: fields are dropped when sections exist, top-level password never read; refutation and universal loss theorem.
* **C38** Field parsing. ParseItemField / ParseItemSection against a relational spec.
* **C39** Dates are shown as the calendar date of the stored time. Float formatting and civil calendar concrete. Expected FALSE for stored numbers >= 10^6; positive for string values.
* **C40** Month/year values are shown as YYYY-MM. String arithmetic.
* **C41** Addresses are shown completely on one line per part. Sorted keys; line decomposition.
* **C42** Titles are capitalised once. Modelled: strings.Title over decoded text (GoStrings). Proved in Properties_Domain: idempotent rune by rune under the stated Unicode laws. Proved in Properties_Title: which positions of an ASCII title change, by induction over the text with the preceding character.
* **C43** Saved settings are read back. Config repo over the file system with a YAML oracle whose round trip law is a hypothesis (record), consistent instance given.
* **C44** Saving keeps unknown settings. Same.
* **C45** A crash while saving loses at most the save. Every intermediate file-system state is in the trace; expected FALSE (truncated file makes the next save panic): refutation plus exact crash states.
* **C46** Missing settings have defaults. Getter totality per key subset.
* **C47** The configuration dialogue keeps settings in range. IO monad for the dialogue, all stdin contents.
* **C48** The configured vault path is the one typed. Expected FALSE (blank answer erases, spaces truncate): refutations; positive for space-free paths.
* **C49** A hand-edited configuration never crashes the program. Expected FALSE: refutation and exact condition.
* **C50** Only a verified binary is ever installed. Invariant over the trace of Update for every network, fault and archive oracle. Expected FALSE for archives with .. entries: refutation; positive for archives whose entries stay inside the cache.
* **C51** An update touches nothing but its cache and the installed program. Expected FALSE (zip slip): refutation; positive under the same hypothesis.
* **C52** The updated program can be run. Expected FALSE: created mode is 0666; universal theorem that the exec bit is lost.
* **C53** A failing step stops the update. Trace shape by case analysis over failures.
* **C54** Update stages are complete and ordered. Same.
* **C55** No update without consent. CLI program in the IO monad.
* **C56** Newer means newer. Expected FALSE: refutations; positive for three one-digit components.
* **C57** An up-to-date program stays unchanged. Trace of Update.
* **C58** Release lookup survives any answer of the server. Expected FALSE: refutations ([] and null fields); exact no-crash condition.
* **C59** Update checks are throttled. Integer arithmetic of ShouldCheck in nanoseconds.
* **C60** The last-check time is recorded only after an answer. Trace theorem and two-run history theorem.
* **C61** Switching notifications off switches update checks off. Expected FALSE for the GUI: refutation; positive for CLI commands.
* **C62** The checksum decides. Concrete Fields/hex; iff.
* **C63** overview reveals no secret. Two-run noninterference of the renderer.
* **C64** details shows everything of the item. Renderer output decomposition.
* **C65** overview is details with the secrets masked. Renderer equality with a masking function from the spec.
* **C66** The password is asked for only after the vault is valid. Trace theorem of the CLI programs.
* **C67** The vault flag overrides the configured vault. Same.
* **C68** The category menu describes the vault. GUI state machine invariant.
* **C69** Selecting a menu entry shows the items of that entry. Expected FALSE when nothing is trashed; positive otherwise.
* **C70** No key crashes the GUI. Expected FALSE; positive under a trashed item and well-behaved server.
* **C71** The selection always points at an entry. Invariant.
* **C72** Secrets are shown only on request. Invariant on screen content.
* **C73** Locking the GUI clears the screen and asks for the password. Step theorem from every reachable state.
* **C74** Locking the GUI drops decrypted items from memory. Expected FALSE: refutation.
* **C75** A wrong password leads back to the prompt. Invariant.
* **C76** GUI and CLI accept the same passwords. Expected FALSE for blank-padded passwords; positive otherwise.
* **C77** The downloads are those of the release. Trace of Update: every URL requested after the release list is the archive or checksum URL of the release the list named.
* **C78** Commands change only the program's own files. Trace and file-system frame theorems for every command: outside settings and update files nothing changes.
* **C79** The password leaves no trace. Trace theorem: after the password is read no request is made and nothing is written; two-run theorem: requests and files do not depend on it.
* **C80** The update that is installed is the one the user confirmed. Expected FALSE (the server is asked twice): refutation; positive if both answers agree.
* **C81** list shows the matching items. list prints the rendered table of exactly the matching rows; composition of C24 with the CLI program.
* **C82** The GUI contacts only the release list and writes only its own files. The world after each event is a function of the world before it (GuiWorld): only the answer of the release check and other processes change it. Frame theorem over all event sequences.
* **C83** What is typed into the GUI leaves no trace. Two-run theorem: the sequence of worlds does not depend on typed text or on the session.
* **C84** What is highlighted is what is selected. Invariant over runs relating cursor, origin and selection of each list; the line at that position is the name of the selected entry.
* **C85** The help line names the keys of the focused view. Invariant over runs: text of the help view as a function of the focused view.
* **C86** An item is shown from its beginning. Invariant over runs: the vertical origin of the details is 0 unless they have the focus; step theorem for both origins.
* **C87** A vault made with the standard algorithms opens. SHA-2, MD5, HMAC, PBKDF2 and AES written out (RealCrypto.v); the laws of `crypto_ok` proved of them (inverse of MixColumns as a ring identity over bits, inverse of the S-box by cases); C10 and C16 instantiated.
* **C88** A vault opens with one password only. Expected FALSE: HMAC pads and hashes its key, so PBKDF2 identifies passwords. Refutation over the standard algorithms; C11 is the positive part.
* **C89** A newer release is announced. Whole process: the events between start and end are the request, file changes and then the announcement, before anything else is printed (Properties_Cli2.v, Properties_Release.v); the converse for the command that lists the categories, with the exact screen. Any two answers without a newer release have the same effect on every command (C89_answers_alike).
* **C90** Times of an item are shown by the local calendar and clock. local_time states the date by Spec_Civil and the clock by hour, minute and second; format_time is shown to print it, for years of four digits; then for the screen of the commands and, over every run, for the GUI's item view (Properties_Item.v).
* **C91** Other programs may run during an update. An update as a list of stages, interleaved with arbitrary changes of the file system by others and with a second update (Shared.v); invariant over every schedule; a schedule that refutes the full claim.
* **C92** Settings saved by another run are kept. A run whose settings are loaded at the start and whose file system is replaced before the command (Shared.v); result of configure as a function of both; a concrete pair of runs refutes the full claim.
* **C93** An item that is not there is reported. Whole process on a stored vault: the exact screen, by the exactness of the lookup (C27) and the run of the command with the vault open (Properties_Stored.v, which also has C65 and C90 for stored vaults).
* **C94** Flags mean the same in every order and spelling. Grammar of command lines as an inductive relation (Spec_Args.v); the parsers of pflag and cobra (Args.v) agree with it in both directions (ArgsProof.v); lifted to whole runs of the program. Flags other than --vault in front of the command are refuted.
* **C95** A wrong command line does nothing. Converse of C94: what is accepted is in the grammar; so outside of it only the branch that prints is left.
* **C96** A wrong command line is reported by the exit status. Refuted by a run: the error is printed and main returns.
* **C97** All is kept in the user's own directory. Path of the directory for every home (Path.v), then C78 and C82.
* **C98** The HTTP timeout limits how long the program waits. Updater with time (Timed.v): servers are connection time, time to the end of the answer and the answer. Refinement of the model without time; bound for prompt servers; expected FALSE in general (only dialling is limited): refutations.
* **C99** An interrupted check does not postpone later ones. World with crash points: a write is a creation or truncation followed by prefixes of its data. Induction over the moments of a check; a prefix of a numeral is smaller, so the next check is due.
* **C100** Every entry of the menu can be read. Centring of go-pretty (Center.v) in place of the centring parameter of the GUI model. Runs of a terminal of fixed size depend on centring at one width only (CenterProof.v); then the marks invariant of C84. Expected FALSE after resizing: refutation.
* **C101** The first line of the GUI tells the version and what the update check found. Invariant over event sequences: text of the version view, whether the check is running and the answers left; the message by cases of the release list specification of C77.
* **C102** The GUI opens the chosen vault and nothing else. Start of the GUI model: choice of the path, validation (C36), first layout; then the steps of typing and ENTER (C68) composed from the start of the process.
* **C103** The update check beside the GUI disturbs nothing. The goroutine as seven steps (Conc.v) woven into the events. A simulation: handlers behave alike in worlds that differ in the last-check file only, the check changes nothing else; induction over the schedule.
* **C104** Keys that wait together act as if they came one by one. gocui's main loop (Batch.v): all waiting events are handled, then laid out and drawn; the prompt is read as drawn last, the size when drawing. Refinement: each event and each drawing is matched by single events on GUIs that agree in all fields and view by view (relational proof over all handlers); laying out again changes nothing while the size stays.
* **C105** The terminal shows the state of the GUI. The texts on the terminal are part of the state of Batch.v and change by drawing only; C101 is carried over through the refinement of C104.
* **C106** An update that can work does work, also after one that did not. RepeatProof.v: every elementary change keeps the files a tree (parents are directories), also in the middle of removing one; the seven stages are executed symbolically on any tree, any cache content and any flat archive. The state after a stopped update is brought under this theorem with C50, C51 and the tree invariant.
* **C107** The GUI and the commands show the same text of an item. The two printers are separate functions of the model (Cli.item_lines, Gui.details_lines); their outputs are compared as byte strings, end to end from a stored vault (C64, C65) and for every reachable GUI (C72).
* **C108** Stored texts cannot control the terminal. Which bytes each printed line has, by cases over the parts of an item. Expected FALSE (texts are printed as they are): a vault is written for every UTF-8 title and opened.
* **C109** configure shows the settings that are in effect. Symbolic execution of the dialogue of configure after any outcome of the update check; numbers by the specification of numerals (Spec_Numeral.v).
* **C110** The command update works from its start to its end. Symbolic execution of the command: the forced check (which stores its time), the question, and the update as in C106 on the disk as it then is; the terminal by following what each stage prints.
* **C111** The commands work whatever the update server does. The world after the check differs from the world before only at the lastcheck file; unlocking and the rest of the command read nothing there (as in C91), so both runs are the same function. Expected FALSE for lists without a proper release: symbolic execution of the check.
* **C112** One run does not change what the next one shows. Invariant of every moment of every run: nothing but the content of the lastcheck file differs; induction over the history; then both compared runs are the same function of the disk (as in C111).
* **C113** Every part of an item can be brought into sight by scrolling. Modelled: the scroll handlers and key bindings of the details widget and the redrawing after a key (Gui). Proved in Properties_Scroll: what one arrow does, by running the handler and the layout on the view; any sequence by induction over it; the reaching sequence is built explicitly (to the start, then right and down) and the losing one is as many steps down as the text has lines.
* **C114** Every item of an open vault can be found in the GUI. Modelled: menu, list and details widgets (Gui). Proved in Properties_Find by composing what single keys do (C69, C71, C72): back to the menu, up or down to the entry by induction on the distance, ENTER, up or down to the row, TAB. An item outside the trash is found under the first entry, which is never the last one because the item's category has an entry too.
* **C115** The right password always leads back into the vault. Modelled as for C114, with the prompt, the error view and locking. Proved in Properties_Find: from each view one key at most leads to the prompt and leaves vault, disk and profile alone; then C114 from the prompt.
* **C116** The GUI ends where CTRL+Q is pressed and nowhere else. Modelled: the main loop of gocui and the quit key (Gui: gui_step, play, gui_process). Proved in Properties_Quit by induction over the history: a step answers that the loop ends exactly for CTRL+Q.

## Findings

Behaviour of the program that a user would not expect, all derived from the faithful model
(theorem in brackets where one states it).

1. The profile of the first vault is cached: a second vault in the same process is
   opened with the first one's keys (C22_..._refuted).
2. `StoreItems` ignores new items unless the vault was locked in between (C22_..._refuted).
3. `DecodeOpdata` panics on malformed lengths (C08_no_crash_refuted).
4. MACs of item key blobs and of items are never compared (C14, C15 refuted).
5. Tampered details are shown as an item without details (C17).
6. One malformed item makes every unlock panic (C19_damage_isolated_refuted).
7. Date numbers of at least 10^6 are shown as 1970-01-01 (C39_dates_refuted).
8. An empty band file, or a newline at the end of a vault file, ends the program; files of
   fewer than 13 bytes make it panic (C31, C34 refuted).
9. Glob metacharacters in the vault path: the vault opens and is empty (C33_any_path_refuted).
10. The settings file is truncated before it is rewritten; an empty one makes `Save` panic
    (C45_crash_while_saving_refuted).
11. Settings of an unexpected type panic (C49_wrong_type_crashes_refuted).
12. `configure`: y and an empty line erase the vault path; paths are cut at the first
    blank (C48 refuted).
13. Archive entries are written wherever their name points, before the checksum is checked
    (C50, C51 refuted).
14. The installed program is not executable (C52_updated_program_refuted).
15. Versions are compared as digits without dots (C56_newer_refuted); a release tagged `v2.0.0` is
    never offered (C56_letter_refuted).
16. `[]`, null fields and empty checksum files panic (C58_lookup_crashes_refuted).
17. The release that is installed is looked up again after the user agreed (C80_..._refuted).
18. An asset named `x.tar.gz.md5` is taken for the archive.
19. The GUI asks the server although notifications are off (C61_notifications_off_refuted).
20. GUI without trashed items: the last category lists the trash; TAB on the empty list panics
    (C69, C70 refuted).
21. Locking the GUI leaves rows and the last item in memory (C74_lock_forgets_refuted).
22. The GUI trims passwords, the command line does not (C76_same_passwords_refuted).
23. Listing categories sorts the shared registry in place (harmless: C03).
24. Going back to the menu does not restore the help text (C85_help_names_keys_refuted).
25. HTTP status codes are not looked at: an error page is parsed or saved like content.
26. Items with sections lose their form fields; the password of a Password item is never
    shown (C37_every_field_shown_refuted).
27. `detailsWidget.resetOrigin` does not reset the column when the view is scrolled both ways
    (C86_covered_from_start_refuted).
28. `resetCursor` never resets the origin of a list: after locking a scrolled menu the highlighted
    entry is not the selected one (C84_menu_after_lock_refuted).
29. `itemsWidget.Layout` can draw rows of the previous category.
30. An unexpected answer of the server ends the GUI (C70_no_key_crashes_partial names it).
31. An archive entry `checksum.md5` replaces the downloaded checksum
    (C50_archive_vouches_for_itself_refuted).
32. A title with a line break takes two lines of the item list: the highlighted line is then not the
    selected item (C84_selected_item_highlighted_refuted).  So does shrinking the terminal in the
    menu (C84_menu_resized_refuted).
33. Any vault opens with further passwords: the right one followed by zero bytes, or the SHA-512
    digest of one longer than 128 bytes (C88; a property of HMAC, not of this program).
34. Two updates at the same time share /tmp/1pass without a lock: one reports success having installed
    what the other had unpacked and not yet checked (C91_two_updates_refuted).
35. `configure` writes back the settings it read when it started: what another run saved meanwhile is
    undone by pressing ENTER (C92_other_change_lost_refuted).
36. A wrong command line ends with exit status 0 (`Run` prints the error and returns;
    C96_failure_status_refuted).
37. Flags in front of a command are taken for flags of the GUI: `1pass -t list` is an error, and so is
    `1pass -v list --vault=x list` (C94_in_front_refuted).
38. The HTTP timeout of the settings limits only connecting: a server that accepts the connection can
    keep every command waiting for ever before it does its work (C98_answer_unbounded_refuted), and
    `timeout: 0` in the settings file removes even that limit (C98_zero_is_no_limit_refuted).
39. The menu is written once, centred for the width the terminal has then: in a terminal that becomes
    much narrower every entry is out of sight (C100_entries_readable_refuted).
40. The goroutine of the update check writes its result into the view without asking for a new
    drawing (no `ui.Update`): it becomes visible with the next key or resize only
    (C105_verdict_waits_refuted), and the view is written and drawn without a lock
    (versionwidget.go:31-44, 57; the data race is not modelled).
41. The password prompt is read with `ViewBuffer`, the text as drawn last (1passwidget.go:150): a
    password that is pasted together with ENTER, or typed faster than the GUI draws, is not tried
    (C104_pasted_password_refuted).
42. Unpacking makes no directories: a release whose archive keeps a regular file in a directory can
    never be installed (updater.go:160-186, C106_directories_refuted).
43. Texts of items are printed as they are: escape sequences in a title or URL of an imported or shared
    vault reach the terminal already with `overview` (clicontrol.go:159-202, 240-283,
    C108_any_text_refuted).
44. A release list without a proper release (`[]`, or a first entry without a body, a tag or assets) stops
    every command that asks for updates before it shows anything (updater.go:62-105, C111_odd_answer_refuted):
    while the server gives this answer `list`, `overview`, `details`, `categories` and `configure` cannot be used.
45. Scrolling the details of an item does not stop at its end: holding an arrow down leaves an empty view, and
    as many keys are needed to come back (detailswidget.go:60-70, 86-96, C113_scrolls_past_end).

## Tests against wrong programs

`seeded/LOG.jsonl` records, one line per attempt, an edit of the model that a realistic bug would
make, the claim that becomes false, the theorems that no longer compile and what was
tightened.
