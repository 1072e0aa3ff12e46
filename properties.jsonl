{"id": "C01", "title": "Category lookup by code is exact and total", "statement": "FromCode(s) succeeds iff s is the code of one of the published categories, and then returns that category; distinct categories have distinct codes, so a category written to a vault is read back as itself.", "quantifier": "every string used as a code", "why_tests_cant": "there are infinitely many strings; tests try two or three codes", "anchors": ["1pass-core/core/domain/itemcategory.go:FromCode", "1pass-core/core/domain/itemcategory.go:newItemCategoryRegistry"]}
{"id": "C02", "title": "Category lookup by name ignores case and nothing else", "statement": "FromName(s) succeeds iff lower-casing s gives the lower-cased name of a published category; any re-capitalisation of a published name finds that category and no other.", "quantifier": "every string used as a name", "why_tests_cant": "every capitalisation of every string cannot be enumerated", "anchors": ["1pass-core/core/domain/itemcategory.go:FromName"]}
{"id": "C03", "title": "Listing categories does not change what lookups mean", "statement": "Sorting the shared category list (done by the categories command and by the GUI menu) never changes the result of any later lookup by code or name, and the printed list contains every category exactly once in code order.", "quantifier": "every order the shared list can be in and every later lookup", "why_tests_cant": "depends on history of calls that mutate shared state", "anchors": ["1pass-term/control/cobra/clicontrol.go:GetCategories", "1pass-app/gui/1passwidget.go:update", "1pass-core/core/domain/itemcategory.go:GetValues"]}
{"id": "C04", "title": "Yes/no answers are recognised exactly", "statement": "An answer is taken as yes iff it is y or Y, as no iff it is n or N, and everything else is rejected.", "quantifier": "every string", "why_tests_cant": "unbounded input domain", "anchors": ["1pass-core/core/domain/logicval.go:FromName", "1pass-core/core/domain/logicval.go:FromValue"]}
{"id": "C05", "title": "Base64 text decodes to the bytes that were encoded", "statement": "For every byte string, decoding its standard base64 encoding (also with line breaks inserted) returns exactly that byte string and no error.", "quantifier": "every byte string of every length", "why_tests_cant": "all lengths mod 3 and all byte values", "anchors": ["1pass-core/core/service/keyservice.go:DerivedKeys", "1pass-core/core/service/keyservice.go:MasterKeys", "1pass-core/core/service/itemservice.go:DecodeOverview"]}
{"id": "C06", "title": "opdata round trip", "statement": "A blob written in the OPVault opdata01 format with an encryption key and a MAC key is decoded by DecodeOpdata with the same keys to exactly the original plaintext, for every plaintext length, IV and padding.", "quantifier": "every plaintext, key, IV and front padding", "why_tests_cant": "all lengths modulo the block size and all paddings", "anchors": ["1pass-core/core/service/keyservice.go:DecodeOpdata", "1pass-core/core/service/keyservice.go:DecodeData", "1pass-core/core/service/keyservice.go:CheckHmac"]}
{"id": "C07", "title": "Nothing is decrypted before authentication", "statement": "DecodeOpdata returns plaintext only if the trailing 32 bytes are the HMAC of everything before them; otherwise it returns the invalid HMAC error and leaves the ciphertext buffer untouched.", "quantifier": "every byte string and every key pair", "why_tests_cant": "forgeries form an unbounded set", "anchors": ["1pass-core/core/service/keyservice.go:DecodeOpdata", "1pass-core/core/service/keyservice.go:CheckHmac"]}
{"id": "C08", "title": "Malformed ciphertext is reported as an error, never as a crash", "statement": "For every byte string DecodeOpdata returns plaintext or an error; the program does not panic.", "quantifier": "every byte string and every key pair", "why_tests_cant": "the malformed inputs are unbounded; tests use well-formed blobs", "anchors": ["1pass-core/core/service/keyservice.go:DecodeOpdata", "1pass-core/core/service/keyservice.go:DecodeData"]}
{"id": "C09", "title": "Derived keys always have the right size and are disjoint halves", "statement": "Encryption key and MAC key derived from a password, a master blob or an overview blob are each exactly 32 bytes: the first and second half of one 64 byte value.", "quantifier": "every password, salt, iteration count and blob", "why_tests_cant": "all inputs", "anchors": ["1pass-core/core/service/keyservice.go:DerivedKeys", "1pass-core/core/service/keyservice.go:DecodeKeys"]}
{"id": "C10", "title": "The right password always opens the vault", "statement": "For every vault whose profile was written from a password and key material according to the OPVault format, Validate then Unlock with that password succeeds and the session keys are the ones the vault was written with.", "quantifier": "every password, salt, iteration count, key material, IV and padding", "why_tests_cant": "one sample vault with one password exists in the tests", "anchors": ["1pass-core/core/facade/vaultfacade.go:Unlock", "1pass-core/core/service/keyservice.go:MasterKeys", "1pass-core/core/service/keyservice.go:OverviewKeys", "1pass-parse/repo/file/profilerepo.go"]}
{"id": "C11", "title": "A password that does not authenticate is refused", "statement": "Unlock returns success only if both the master and the overview blob authenticate under the MAC key derived from the given password; in every other case that does not crash it returns the invalid password error.", "quantifier": "every profile content and password", "why_tests_cant": "all passwords and corrupted profiles", "anchors": ["1pass-core/core/facade/vaultfacade.go:Unlock"]}
{"id": "C12", "title": "A refused unlock changes nothing", "statement": "After an Unlock that returned an error, every query (IsUnlocked, CountItems, GetItems, GetItem) answers exactly as before the attempt.", "quantifier": "every state, vault and password", "why_tests_cant": "all session histories", "anchors": ["1pass-core/core/facade/vaultfacade.go:Unlock"]}
{"id": "C13", "title": "Item keys round trip", "statement": "The item key pair recovered from an item written in OPVault format under the master key is the pair the item was written with.", "quantifier": "every key pair, IV and master key", "why_tests_cant": "all byte values", "anchors": ["1pass-core/core/service/keyservice.go:ItemKeys"]}
{"id": "C14", "title": "Item key blobs are authenticated", "statement": "Changing the MAC of an item's key blob makes the item undecodable.", "quantifier": "every item and every altered MAC", "why_tests_cant": "an adversarial input space", "anchors": ["1pass-core/core/service/keyservice.go:ItemKeys"]}
{"id": "C15", "title": "Stored item metadata is authenticated", "statement": "Changing the category, trashed flag, timestamps or HMAC of a stored item is detected when the vault is opened.", "quantifier": "every item and every alteration", "why_tests_cant": "an adversarial input space", "anchors": ["1pass-core/core/service/itemservice.go:DecodeItems", "1pass-parse/repo/file/itemrepo.go:LoadItems"]}
{"id": "C16", "title": "An item is decoded to what was stored in it", "statement": "For every item written in OPVault format, opening the vault yields an item with the stored uid, category, trashed flag, timestamps, title, URL, notes and sections.", "quantifier": "every overview and details document, every key and IV", "why_tests_cant": "unbounded documents and keys", "anchors": ["1pass-core/core/service/itemservice.go:DecodeItems", "1pass-core/core/service/itemservice.go:DecodeOverview", "1pass-core/core/service/itemservice.go:DecodeDetails"]}
{"id": "C17", "title": "Unauthenticated content is never shown", "statement": "If the overview (details) blob of an item does not authenticate, the item's title and URL (notes and sections) are empty; no byte of the forged content is used.", "quantifier": "every forged blob", "why_tests_cant": "an adversarial input space", "anchors": ["1pass-core/core/service/itemservice.go:DecodeOverview", "1pass-core/core/service/itemservice.go:DecodeDetails", "1pass-core/core/service/itemservice.go:DecodeItems"]}
{"id": "C18", "title": "No item is lost, invented or merged", "statement": "Opening a vault yields exactly one item per stored entry whose category code is published, with that entry's uid, trashed flag and timestamps, and no others.", "quantifier": "every vault content and every map iteration order", "why_tests_cant": "all vault contents and schedules", "anchors": ["1pass-core/core/service/itemservice.go:DecodeItems", "1pass-parse/repo/file/itemrepo.go:LoadItems"]}
{"id": "C19", "title": "One damaged item does not take the others down", "statement": "If one stored item is malformed, the other items of the vault can still be listed.", "quantifier": "every vault with one malformed item", "why_tests_cant": "all malformed contents", "anchors": ["1pass-core/core/service/itemservice.go:DecodeItems", "1pass-core/core/service/itemservice.go:ParseItemField", "1pass-parse/repo/file/itemrepo.go:LoadItems"]}
{"id": "C20", "title": "Lock forgets everything", "statement": "After Lock, from any history, IsUnlocked is false, every count is 0, every list is empty and every item lookup finds nothing.", "quantifier": "every history of calls ending in Lock", "why_tests_cant": "all histories", "anchors": ["1pass-core/core/facade/vaultfacade.go:Lock", "1pass-parse/repo/file/itemrepo.go:RemoveItems"]}
{"id": "C21", "title": "A locked vault shows no items", "statement": "In every reachable state of the facade, if IsUnlocked is false then no query returns any item.", "quantifier": "every history of calls", "why_tests_cant": "all histories", "anchors": ["1pass-core/core/facade/vaultfacade.go", "1pass-parse/repo/file/itemrepo.go:StoreItems"]}
{"id": "C22", "title": "After a successful unlock the queries describe that vault", "statement": "After any history, if Validate(v) and Unlock(v,p) succeed then the queries describe the contents of v opened with v's own profile.", "quantifier": "every history of calls over several vaults", "why_tests_cant": "histories with several vaults and repeated unlocks", "anchors": ["1pass-core/core/facade/vaultfacade.go:Unlock", "1pass-parse/repo/file/profilerepo.go:LoadProfile", "1pass-parse/repo/file/itemrepo.go:StoreItems"]}
{"id": "C23", "title": "Queries are read-only", "statement": "CountItems, GetItems, GetItem and IsUnlocked never change the answer of any other query.", "quantifier": "every interleaving of queries with other calls", "why_tests_cant": "all interleavings", "anchors": ["1pass-core/core/facade/vaultfacade.go", "1pass-parse/repo/file/itemrepo.go"]}
{"id": "C24", "title": "Listing returns exactly the matching items", "statement": "GetItems(category,title,trashed) returns one row for every item of that category (or any), trashed flag, whose lower-cased title contains the lower-cased search text, and no other row.", "quantifier": "every item set and every query", "why_tests_cant": "all item sets and queries", "anchors": ["1pass-parse/repo/file/itemrepo.go:FindByCategoryAndTitleAndTrashed", "1pass-core/core/service/itemservice.go:GetSimpleItems"]}
{"id": "C25", "title": "Listings are sorted and reproducible", "statement": "Rows are ordered by category code and then title, and two openings of the same vault list the same (category, title) sequence whatever the map iteration order and whatever the unstable sort does.", "quantifier": "every vault, iteration order and sort", "why_tests_cant": "randomised iteration order cannot be enumerated by tests", "anchors": ["1pass-core/core/service/itemservice.go:GetSimpleItems", "1pass-parse/repo/file/itemrepo.go:LoadItems"]}
{"id": "C26", "title": "Counts agree with listings", "statement": "CountItems(c,t) equals the number of rows of GetItems(c,\"\",t); the per-category counts add up to the total; trashed and untrashed items partition the vault.", "quantifier": "every item set", "why_tests_cant": "all item sets", "anchors": ["1pass-parse/repo/file/itemrepo.go:CountByCategoryAndTrashed"]}
{"id": "C27", "title": "Item lookup by uid is exact and order independent", "statement": "GetItem(uid,trashed) returns the item with that uid and trashed flag if the vault has it and nothing otherwise, whatever the map iteration order.", "quantifier": "every vault, uid and iteration order", "why_tests_cant": "all vaults and schedules", "anchors": ["1pass-parse/repo/file/itemrepo.go:FindFirstByUidAndTrashed"]}
{"id": "C28", "title": "Every listed row can be opened", "statement": "Every row of a listing, used as the argument of GetItem, gives an item with the same uid, title, category and trashed flag.", "quantifier": "every vault and query", "why_tests_cant": "all vaults", "anchors": ["1pass-term/control/gocui/guicontrol.go:GetItem", "1pass-core/core/service/itemservice.go:GetItem", "1pass-core/core/service/itemservice.go:GetSimpleItems"]}
{"id": "C29", "title": "Search is case-insensitive", "statement": "Changing the letter case of the search text never changes the listing, and the empty text matches everything.", "quantifier": "every search text and vault", "why_tests_cant": "all texts", "anchors": ["1pass-parse/repo/file/itemrepo.go:FindByCategoryAndTitleAndTrashed"]}
{"id": "C30", "title": "All band files are read", "statement": "If a vault's band files are written in the OPVault format, the stored entries are exactly the entries of all band files together (the later file winning for a repeated uid).", "quantifier": "every number of band files and all their contents", "why_tests_cant": "unbounded contents", "anchors": ["1pass-parse/repo/file/itemrepo.go:LoadItems"]}
{"id": "C31", "title": "A vault with an empty band file can be read", "statement": "A vault some of whose band files hold no items still opens and shows the items of the others.", "quantifier": "every vault with an empty band", "why_tests_cant": "all positions of the empty file", "anchors": ["1pass-parse/repo/file/itemrepo.go:LoadItems"]}
{"id": "C32", "title": "Unrelated files in the vault directory are ignored", "statement": "Adding or changing files whose name does not match band_*.js (attachments, folders.js, ._band_0.js) never changes the loaded entries.", "quantifier": "every file name and content", "why_tests_cant": "all names", "anchors": ["1pass-parse/repo/file/itemrepo.go:LoadItems"]}
{"id": "C33", "title": "The vault may live at any path", "statement": "A vault that validates at a path is read the same way whatever characters its path contains.", "quantifier": "every path", "why_tests_cant": "all paths", "anchors": ["1pass-parse/repo/file/itemrepo.go:LoadItems", "1pass-core/core/service/vaultservice.go:ValidateVault"]}
{"id": "C34", "title": "A trailing newline in vault files is harmless", "statement": "profile.js and band files that end in a newline are read like those that do not.", "quantifier": "every vault", "why_tests_cant": "all contents", "anchors": ["1pass-parse/repo/file/itemrepo.go:LoadItems", "1pass-parse/repo/file/profilerepo.go:LoadProfile"]}
{"id": "C35", "title": "JSON text decodes to the value that was encoded", "statement": "Decoding the JSON text of any value (objects, arrays, strings with every escape, integers, booleans, null, any white space) returns that value.", "quantifier": "every JSON value", "why_tests_cant": "unbounded nesting and strings", "anchors": ["1pass-core/core/service/itemservice.go:DecodeOverview", "1pass-parse/repo/file/itemrepo.go:LoadItems"]}
{"id": "C36", "title": "Validate accepts exactly vault directories", "statement": "Validate succeeds iff the path is a directory that holds default/profile.js as a file; each failure is reported with its own message, and a failed validation loads nothing.", "quantifier": "every file system and path", "why_tests_cant": "all file systems", "anchors": ["1pass-core/core/service/vaultservice.go:ValidateVault"]}
{"id": "C37", "title": "Every stored field is shown", "statement": "Every non-empty field, section field and password stored in an item appears in the decoded item.", "quantifier": "every details document", "why_tests_cant": "all documents", "anchors": ["1pass-core/core/service/itemservice.go:DecodeItems"]}
{"id": "C38", "title": "Field parsing", "statement": "A form field is shown iff its name and value are non-empty; a section field is shown iff it has a value; a section is shown iff it has a title or a field; order is preserved.", "quantifier": "every details document", "why_tests_cant": "all documents", "anchors": ["1pass-core/core/service/itemservice.go:ParseItemField", "1pass-core/core/service/itemservice.go:ParseItemSection", "1pass-core/core/service/itemservice.go:DecodeItems"]}
{"id": "C39", "title": "Dates are shown as the calendar date of the stored time", "statement": "A date field holding a Unix time is shown as its calendar date YYYY-MM-DD in the local time zone.", "quantifier": "every Unix time and time zone", "why_tests_cant": "all dates, leap years, centuries", "anchors": ["1pass-core/core/domain/datatype.go:parseDate", "1pass-core/core/service/itemservice.go:ParseItemField"]}
{"id": "C40", "title": "Month/year values are shown as YYYY-MM", "statement": "A monthYear field holding YYYYMM is shown as YYYY-MM, from which the stored value can be recovered.", "quantifier": "every year and month", "why_tests_cant": "all values", "anchors": ["1pass-core/core/domain/datatype.go:parseMonthYear"]}
{"id": "C41", "title": "Addresses are shown completely on one line per part", "statement": "Every part of an address is shown once, in key order, one line per part.", "quantifier": "every address", "why_tests_cant": "all addresses", "anchors": ["1pass-core/core/domain/datatype.go:parseAddress"]}
{"id": "C42", "title": "Titles are capitalised once", "statement": "A section title is shown with the first letter of every word capitalised; in an ASCII title exactly the small letters that start a word change, each to its capital, and nothing else does. Capitalising an already capitalised title changes nothing, so the double application shows the same title as a single one.", "quantifier": "every string (every ASCII string for which letters change)", "why_tests_cant": "all strings", "anchors": ["1pass-core/core/service/itemservice.go:ParseItemSection"]}
{"id": "C43", "title": "Saved settings are read back", "statement": "After SaveConfig(c), GetConfig returns c, in this process and in any later one.", "quantifier": "every configuration, every prior file content", "why_tests_cant": "all values and histories", "anchors": ["1pass-parse/repo/file/configrepo.go:Save", "1pass-parse/repo/file/configrepo.go:loadConfigFile", "1pass-core/core/service/configservice.go"]}
{"id": "C44", "title": "Saving keeps unknown settings", "statement": "SaveConfig leaves every other key of the configuration file unchanged.", "quantifier": "every file content", "why_tests_cant": "all contents", "anchors": ["1pass-parse/repo/file/configrepo.go:Save"]}
{"id": "C45", "title": "A crash while saving loses at most the save", "statement": "If the process dies at any point of SaveConfig, the next run still works: it reads the old or the new settings, or asks again and can save.", "quantifier": "every crash point", "why_tests_cant": "crash points cannot be unit tested", "anchors": ["1pass-parse/repo/file/configrepo.go:Save", "1pass-parse/repo/file/configrepo.go:loadConfigFile", "1pass-term/control/cobra/clicontrol.go:FirstRun"]}
{"id": "C46", "title": "Missing settings have defaults", "statement": "Without a configuration file the settings are timeout 1, notifications on, period 1, no vault, and the configuration counts as not available; each missing key falls back to its own default.", "quantifier": "every subset of keys", "why_tests_cant": "all subsets and values", "anchors": ["1pass-parse/repo/file/configrepo.go"]}
{"id": "C47", "title": "The configuration dialogue keeps settings in range", "statement": "configure never stores a timeout outside 1..30 or a period outside 0..365 unless it was there before, and an invalid or empty answer keeps the old timeout, period and notification setting.", "quantifier": "every input text and prior configuration", "why_tests_cant": "all inputs", "anchors": ["1pass-term/control/cobra/clicontrol.go:Configure"]}
{"id": "C48", "title": "The configured vault path is the one typed", "statement": "Answering y and typing a path stores that path; answering with an empty line keeps the previous one.", "quantifier": "every path and prior configuration", "why_tests_cant": "all paths", "anchors": ["1pass-term/control/cobra/clicontrol.go:Configure"]}
{"id": "C49", "title": "A hand-edited configuration never crashes the program", "statement": "Whatever well-formed settings file is present, reading the configuration returns values.", "quantifier": "every settings file", "why_tests_cant": "all files", "anchors": ["1pass-parse/repo/file/configrepo.go:GetTimeout", "1pass-parse/repo/file/configrepo.go:GetUpdatePeriod"]}
{"id": "C50", "title": "Only a verified binary is ever installed", "statement": "At every point of an update, including every crash point and every failure, the installed program is either the old one or one whose MD5 sum equals the first word of the downloaded checksum file.", "quantifier": "every network, archive, failure and crash point", "why_tests_cant": "crash points and adversarial archives", "anchors": ["1pass-core/core/service/updateservice.go:Update", "1pass-up/component/github/updater.go:ReplaceBinary", "1pass-up/component/github/updater.go:ValidateChecksum"]}
{"id": "C51", "title": "An update touches nothing but its cache and the installed program", "statement": "Before the checksum is validated no file outside the cache directory is created or changed.", "quantifier": "every archive", "why_tests_cant": "adversarial archives", "anchors": ["1pass-up/component/github/updater.go:ExtractArchive", "1pass-core/core/service/updateservice.go:Update"]}
{"id": "C52", "title": "The updated program can be run", "statement": "After a successful update the installed program is executable.", "quantifier": "every archive", "why_tests_cant": "the tests never install", "anchors": ["1pass-up/component/github/updater.go:ExtractArchive", "1pass-up/component/github/updater.go:ReplaceBinary"]}
{"id": "C53", "title": "A failing step stops the update", "statement": "If any step of an update fails (a request, a file operation, or an archive that is damaged or cut short), no later step runs, the error is returned, and the reported stages are a prefix of 1..7.", "quantifier": "every failure pattern", "why_tests_cant": "all combinations", "anchors": ["1pass-core/core/service/updateservice.go:Update"]}
{"id": "C54", "title": "Update stages are complete and ordered", "statement": "A successful update reports the stages 1 to 7 in order, each once, validates before replacing, and leaves no cache directory.", "quantifier": "every successful run", "why_tests_cant": "all runs", "anchors": ["1pass-core/core/service/updateservice.go:Update"]}
{"id": "C55", "title": "No update without consent", "statement": "The update command installs only after the remote release is newer and the user answered y or Y; any other answer, including none, aborts with exit status 1 and changes no file but the timestamp.", "quantifier": "every answer and network", "why_tests_cant": "all inputs", "anchors": ["1pass-term/control/cobra/clicontrol.go:Update"]}
{"id": "C56", "title": "Newer means newer", "statement": "A release is offered iff its version is higher than the running version.", "quantifier": "every version string", "why_tests_cant": "all version strings", "anchors": ["1pass-up/component/github/updater.go:CheckForUpdate"]}
{"id": "C57", "title": "An up-to-date program stays unchanged", "statement": "If the release is not newer or unknown, Update returns the up to date error and performs no file operation.", "quantifier": "every network response", "why_tests_cant": "all responses", "anchors": ["1pass-core/core/service/updateservice.go:Update"]}
{"id": "C58", "title": "Release lookup survives any answer of the server", "statement": "Whatever the server answers, looking for an update returns a result or an error, never a crash.", "quantifier": "every response body", "why_tests_cant": "all bodies", "anchors": ["1pass-up/component/github/updater.go:CheckForUpdate"]}
{"id": "C59", "title": "Update checks are throttled", "statement": "Without force, the network is contacted iff there is no readable last-check time or at least the configured number of whole days lies between it and now; period 0 means always. (Float arithmetic: in the last 10 microseconds of a period it may already be contacted.) This is so for every command that looks for updates; the command update always asks.", "quantifier": "every time, period and last-check file", "why_tests_cant": "all times", "anchors": ["1pass-up/component/github/updater.go:ShouldCheck", "1pass-core/core/service/updateservice.go:CheckForUpdate"]}
{"id": "C60", "title": "The last-check time is recorded only after an answer", "statement": "The last-check file is written iff the server was asked and answered; after that a check within the period does not contact the network.", "quantifier": "every history of checks", "why_tests_cant": "all histories", "anchors": ["1pass-core/core/service/updateservice.go:CheckForUpdate", "1pass-up/component/github/updater.go:CheckTimestamp"]}
{"id": "C61", "title": "Switching notifications off switches update checks off", "statement": "With update notifications disabled no command except update contacts the network.", "quantifier": "every command and configuration", "why_tests_cant": "all commands", "anchors": ["1pass-term/control/cobra/clicontrol.go:CheckForUpdate", "1pass-app/gui/versionwidget.go:update"]}
{"id": "C62", "title": "The checksum decides", "statement": "ValidateChecksum succeeds iff the first word of the checksum file is the lower-case hexadecimal MD5 of the binary.", "quantifier": "every file content", "why_tests_cant": "all contents", "anchors": ["1pass-up/component/github/updater.go:ValidateChecksum"]}
{"id": "C63", "title": "overview reveals no secret", "statement": "The output of overview does not depend on any field value or on the text of the notes, only on whether they exist.", "quantifier": "every pair of items that differ only in secrets", "why_tests_cant": "a two-run property over all items", "anchors": ["1pass-term/control/cobra/clicontrol.go:GetItemOverview", "1pass-app/gui/detailswidget.go:update"]}
{"id": "C64", "title": "details shows everything of the item", "statement": "The output of details contains every field name with its value, in order under its section, and the notes.", "quantifier": "every item", "why_tests_cant": "all items", "anchors": ["1pass-term/control/cobra/clicontrol.go:GetItemDetails", "1pass-app/gui/detailswidget.go:update"]}
{"id": "C65", "title": "overview is details with the secrets masked", "statement": "For every item the overview output is the details output of the item with all field values and notes replaced by the mask.", "quantifier": "every item", "why_tests_cant": "all items", "anchors": ["1pass-term/control/cobra/clicontrol.go:GetItemOverview", "1pass-term/control/cobra/clicontrol.go:GetItemDetails", "1pass-app/gui/detailswidget.go:update"]}
{"id": "C66", "title": "The password is asked for only after the vault is valid", "statement": "list, overview and details read a password only if the vault validates; otherwise they print the reason and exit with status 1; a wrong password prints the reason and exits with status 1 without showing any item.", "quantifier": "every file system, flags and password", "why_tests_cant": "all environments", "anchors": ["1pass-term/control/cobra/clicontrol.go:GetItems", "1pass-term/control/cobra/clicontrol.go:GetItemOverview", "1pass-term/control/cobra/clicontrol.go:GetItemDetails"]}
{"id": "C67", "title": "The vault flag overrides the configured vault", "statement": "Commands use the -v path when given and non-empty and the configured vault otherwise.", "quantifier": "every flag value and configuration", "why_tests_cant": "all values", "anchors": ["1pass-term/control/cobra/clicontrol.go", "1pass-term/control/gocui/guicontrol.go:ValidateVault"]}
{"id": "C68", "title": "The category menu describes the vault", "statement": "After unlocking, the menu has All with the number of untrashed items, then each category that has untrashed items with its number in code order, then Trashed with its number if not 0 - each once, after any history of locking and unlocking.", "quantifier": "every vault and every key sequence", "why_tests_cant": "all event histories", "anchors": ["1pass-app/gui/1passwidget.go:update", "1pass-app/gui/1passwidget.go:lock"]}
{"id": "C69", "title": "Selecting a menu entry shows the items of that entry", "statement": "Opening a menu entry shows exactly the items that entry counts.", "quantifier": "every vault, menu position and event history", "why_tests_cant": "all positions and vaults", "anchors": ["1pass-app/gui/1passwidget.go:showItems"]}
{"id": "C70", "title": "No key crashes the GUI", "statement": "No sequence of keys makes the GUI panic.", "quantifier": "every key sequence and vault", "why_tests_cant": "all event histories", "anchors": ["1pass-app/gui/itemswidget.go:toggleDetails", "1pass-app/gui/1passwidget.go:showItems"]}
{"id": "C71", "title": "The selection always points at an entry", "statement": "In every reachable state the selected menu index and item index lie within their lists, and moving past either end changes nothing.", "quantifier": "every key sequence", "why_tests_cant": "all event histories", "anchors": ["1pass-app/gui/1passwidget.go:cursorDown", "1pass-app/gui/1passwidget.go:cursorUp", "1pass-app/gui/itemswidget.go:cursorDown", "1pass-app/gui/itemswidget.go:cursorUp"]}
{"id": "C72", "title": "Secrets are shown only on request", "statement": "The GUI shows field values only after TAB on the selected item; moving the selection, covering, going back or locking removes them from the screen.", "quantifier": "every key sequence", "why_tests_cant": "all event histories", "anchors": ["1pass-app/gui/itemswidget.go:showOverview", "1pass-app/gui/itemswidget.go:toggleDetails", "1pass-app/gui/detailswidget.go:toggleDetails"]}
{"id": "C73", "title": "Locking the GUI clears the screen and asks for the password", "statement": "CTRL+L in the menu, the item list or the details view locks the vault, removes all item data from the screen and shows the password prompt.", "quantifier": "every reachable GUI state", "why_tests_cant": "all event histories", "anchors": ["1pass-app/gui/1passwidget.go:lock", "1pass-app/gui/itemswidget.go:lock"]}
{"id": "C74", "title": "Locking the GUI drops decrypted items from memory", "statement": "After CTRL+L no widget holds a decrypted item.", "quantifier": "every reachable GUI state", "why_tests_cant": "all event histories", "anchors": ["1pass-app/gui/itemswidget.go", "1pass-app/gui/detailswidget.go", "1pass-app/gui/1passwidget.go:lock"]}
{"id": "C75", "title": "A wrong password leads back to the prompt", "statement": "After a wrong password the GUI shows the error and, after ENTER, a fresh prompt; the vault stays locked; any number of times.", "quantifier": "every sequence of attempts", "why_tests_cant": "all histories", "anchors": ["1pass-app/gui/1passwidget.go:unlock", "1pass-app/gui/1passwidget.go:closeError"]}
{"id": "C76", "title": "GUI and CLI accept the same passwords", "statement": "A password opens the vault in the GUI iff it opens it in the CLI.", "quantifier": "every password", "why_tests_cant": "all passwords", "anchors": ["1pass-app/gui/1passwidget.go:unlock", "1pass-term/control/cobra/clicontrol.go:GetItems"]}
{"id": "C77", "title": "The downloads are those of the release", "statement": "The archive that is downloaded is the last asset of the newest release with .tar.gz in its name, the checksum the last other asset with .md5 in its name, and version and notes shown are those of that release; without such an asset nothing is downloaded.", "quantifier": "every release document", "why_tests_cant": "unbounded documents", "anchors": ["1pass-up/component/github/updater.go:CheckForUpdate"]}
{"id": "C78", "title": "Commands change only the program's own files", "statement": "Apart from update, no command ever changes a file other than the settings file and the last-check file; with notifications off only configure changes any.", "quantifier": "every command, world and crash point", "why_tests_cant": "all worlds", "anchors": ["1pass-term/control/cobra/clicontrol.go", "1pass-parse/repo/file/configrepo.go:Save", "1pass-up/component/github/updater.go:CheckTimestamp"]}
{"id": "C79", "title": "The password leaves no trace", "statement": "After the password prompt a command only prints: it contacts no server and writes no file, files and requests are the same whatever password is typed, and two passwords that have the same effect on the vault (two wrong ones, say) cannot be told apart by anything the command shows.", "quantifier": "every command and every pair of passwords", "why_tests_cant": "a two-run property", "anchors": ["1pass-term/control/cobra/clicontrol.go:GetItems", "1pass-term/control/cobra/clicontrol.go:GetItemOverview", "1pass-term/control/cobra/clicontrol.go:GetItemDetails"]}
{"id": "C80", "title": "The update that is installed is the one the user confirmed", "statement": "update downloads only the archive and checksum of the release it announced.", "quantifier": "every sequence of server answers", "why_tests_cant": "servers that change between requests", "anchors": ["1pass-term/control/cobra/clicontrol.go:Update", "1pass-core/core/service/updateservice.go:Update"]}
{"id": "C81", "title": "list shows the matching items", "statement": "On a stored vault list prints a table of exactly the items that match category, title and trash flag, in order, numbered from 1, or says that there are none; an unknown category is reported with exit status 1.", "quantifier": "every vault, category text, title and flag", "why_tests_cant": "all vaults and texts", "anchors": ["1pass-term/control/cobra/clicontrol.go:GetItems"]}
{"id": "C82", "title": "The GUI contacts only the release list and writes only its own files", "statement": "While it runs the GUI requests nothing but the list of releases, once for the version line and once more only if it had to ask for settings first; unless another process does, it changes no file but the last-check file and, when there were none, the settings.", "quantifier": "every configuration, vault and event sequence", "why_tests_cant": "all event histories", "anchors": ["1pass-app/gui/gocui.go", "1pass-app/gui/versionwidget.go:update", "1pass-term/control/gocui/guicontrol.go:CheckForUpdate", "1pass-up/component/github/updater.go:CheckTimestamp"]}
{"id": "C83", "title": "What is typed into the GUI leaves no trace", "statement": "Two runs of the GUI that differ only in what is typed into the prompt send the same requests and write the same files.", "quantifier": "every pair of event sequences that differ in typed text", "why_tests_cant": "a two-run property over all event histories", "anchors": ["1pass-app/gui/1passwidget.go:unlock", "1pass-app/gui/versionwidget.go:update"]}
{"id": "C84", "title": "What is highlighted is what is selected", "statement": "The highlighted line of the menu and of the item list is the line of the entry or item the next key acts on, and it is on the screen.", "quantifier": "every vault, terminal size and event history", "why_tests_cant": "all event histories and list lengths", "anchors": ["1pass-app/gui/1passwidget.go:cursorDown", "1pass-app/gui/1passwidget.go:cursorUp", "1pass-app/gui/1passwidget.go:lock", "1pass-app/gui/itemswidget.go:cursorDown", "1pass-app/gui/itemswidget.go:cursorUp", "1pass-app/gui/itemswidget.go:update"]}
{"id": "C85", "title": "The help line names the keys of the focused view", "statement": "In every state the help line lists the keys of the view that receives the keys.", "quantifier": "every event history", "why_tests_cant": "all event histories", "anchors": ["1pass-app/gui/helpwidget.go", "1pass-app/gui/itemswidget.go:goBack"]}
{"id": "C86", "title": "An item is shown from its beginning", "statement": "Whenever another item is selected, revealed or covered, its text is shown from its first line and first column, however far the previous text was scrolled.", "quantifier": "every event history and item", "why_tests_cant": "all event histories", "anchors": ["1pass-app/gui/detailswidget.go:resetOrigin", "1pass-app/gui/detailswidget.go:update"]}
{"id": "C87", "title": "A vault made with the standard algorithms opens", "statement": "A vault written with AES-256-CBC, HMAC-SHA-256, SHA-512 and PBKDF2-HMAC-SHA-512 as their standards define them opens with its password and shows exactly the items written, with no assumption about the algorithms.", "quantifier": "every password, salt, iteration count, set of items and runtime choice", "why_tests_cant": "all keys and blocks of AES (2^384 pairs) and all messages", "anchors": ["1pass-core/core/service/keyservice.go:DecodeData", "1pass-core/core/service/keyservice.go:CheckHmac", "1pass-core/core/service/keyservice.go:DerivedKeys", "1pass-parse/util/pbkdf2/cryptoutils.go:DeriveKey"]}
{"id": "C88", "title": "A vault opens with one password only", "statement": "Unlocking a vault with another password than the one that opens it is refused.", "quantifier": "every vault and every pair of passwords", "why_tests_cant": "all passwords", "anchors": ["1pass-core/core/service/keyservice.go:DerivedKeys", "1pass-parse/util/pbkdf2/cryptoutils.go:DeriveKey"]}
{"id": "C89", "title": "A newer release is announced", "statement": "When a check is due, notifications are on and the newest release is newer, every command but update and version first prints that it is available and with which version, once, and then does its work; when there is no newer release, or the server cannot be asked, nothing is printed about it and the command does its work all the same.", "quantifier": "every command, configuration, network and clock", "why_tests_cant": "all worlds", "anchors": ["1pass-term/control/cobra/clicontrol.go:CheckForUpdate", "1pass-core/core/service/updateservice.go:CheckForUpdate"]}
{"id": "C90", "title": "Times of an item are shown by the local calendar and clock", "statement": "overview, details and the GUI show when an item was changed and created as YYYY-MM-DD HH:MM:SS in the local time zone, and whether it is in the trash.", "quantifier": "every item, time and time zone", "why_tests_cant": "all times and zones", "anchors": ["1pass-term/control/cobra/clicontrol.go:GetItemOverview", "1pass-term/control/cobra/clicontrol.go:GetItemDetails", "1pass-app/gui/detailswidget.go:update"]}
{"id": "C91", "title": "Other programs may run during an update", "statement": "While an update runs, other programs change files between its stages; the installed program is at every moment the old one or one attested by the downloaded checksum, and an update that reports success has installed what it checked.", "quantifier": "every interleaving of the stages of an update with other programs, including a second update", "why_tests_cant": "schedules", "anchors": ["1pass-core/core/service/updateservice.go:Update", "1pass-up/component/github/updater.go:ValidateChecksum", "1pass-up/component/github/updater.go:ReplaceBinary"]}
{"id": "C92", "title": "Settings saved by another run are kept", "statement": "What another run of the program saves while configure asks its questions is not undone unless the user answers otherwise.", "quantifier": "every moment at which another run saves, every settings file and answer", "why_tests_cant": "schedules", "anchors": ["1pass-parse/repo/file/configrepo.go:Save", "1pass-term/control/cobra/clicontrol.go:Configure"]}
{"id": "C93", "title": "An item that is not there is reported", "statement": "When no item of the vault has the uid asked for, or it is in the trash and trashed items were not asked for (or the reverse), overview and details say that it does not exist, succeed, and show nothing else of the vault.", "quantifier": "every vault, uid and trash flag", "why_tests_cant": "all vaults and uids", "anchors": ["1pass-term/control/cobra/clicontrol.go:GetItemOverview", "1pass-term/control/cobra/clicontrol.go:GetItemDetails", "1pass-parse/repo/file/itemrepo.go:FindFirstByUidAndTrashed"]}
{"id": "C94", "title": "Flags mean the same in every order and spelling", "statement": "A command is run with the values of its flags whether they are written -v X, -vX, -v=X, --vault X or --vault=X, in any order, mixed with the UID, with switches joined behind one dash; of a repeated flag the last value counts; values are taken verbatim; a command line has only one meaning.", "quantifier": "every command line made of the documented flags", "why_tests_cant": "the spellings and orders are unboundedly many", "anchors": ["1pass-app/cli/cobra.go:init"]}
{"id": "C95", "title": "A wrong command line does nothing", "statement": "A command line with an unknown command or flag, a missing value or UID, or a word too many prints a message and has no other effect: no vault is opened, no file changed, nothing requested, no password asked.", "quantifier": "every command line that is not well formed", "why_tests_cant": "all command lines", "anchors": ["1pass-app/cli/cobra.go:init", "1pass-app/cli/cobra.go:Run"]}
{"id": "C96", "title": "A wrong command line is reported by the exit status", "statement": "After a command line that was not understood the exit status is not that of success.", "quantifier": "every command line that is not well formed", "why_tests_cant": "all command lines", "anchors": ["1pass-app/cli/cobra.go:Run"]}
{"id": "C97", "title": "All is kept in the user's own directory", "statement": "Whatever is typed on the command line or in the GUI, the program changes no files but 1pass.yml and lastcheck in $HOME/.config/1pass (update aside); without a home directory it does nothing.", "quantifier": "every home directory, command line, sequence of keys and world", "why_tests_cant": "all homes, command lines and crash points", "anchors": ["1pass-app/main.go:main", "1pass-app/cli/cobra.go:init"]}
{"id": "C98", "title": "The HTTP timeout limits how long the program waits", "statement": "Looking for an update waits at most the configured number of seconds, and installing one at most that long for each of its three requests; the waiting changes nothing else about what is done.", "quantifier": "every configuration, world and behaviour of the servers, including servers that never answer", "why_tests_cant": "all delays, and waiting for ever", "anchors": ["1pass-up/component/github/updater.go:httpClient", "1pass-up/component/github/updater.go:CheckForUpdate", "1pass-up/component/github/updater.go:DownloadFile", "1pass-core/core/facade/updatefacade.go", "1pass-parse/repo/file/configrepo.go:GetTimeout"]}
{"id": "C99", "title": "An interrupted check does not postpone later ones", "statement": "If the program is stopped at any moment while it looks for updates, the recorded time of the last check is the earlier one, or the time of this check, or the next check asks the server.", "quantifier": "every moment at which the program can be stopped, every earlier content of the file", "why_tests_cant": "all crash points", "anchors": ["1pass-up/component/github/updater.go:CheckTimestamp", "1pass-up/component/github/updater.go:ShouldCheck"]}
{"id": "C100", "title": "Every entry of the menu can be read", "statement": "In the GUI each category that has items is shown in the menu on a line of its own, with its whole name and number of items.", "quantifier": "every vault, terminal size, sequence of events", "why_tests_cant": "all vaults, sizes and histories", "anchors": ["1pass-app/gui/1passwidget.go:update", "1pass-app/gui/1passwidget.go:Layout"]}
{"id": "C101", "title": "The first line of the GUI tells the version and what the update check found", "statement": "The first line names the version of the program. Nothing follows until the check has ended; then it announces the newest release if it is newer, or says that the program is up to date, or that the check failed. No key changes it.", "quantifier": "every answer of the server and every sequence of events", "why_tests_cant": "all histories and answers", "anchors": ["1pass-app/gui/versionwidget.go:update", "1pass-app/gui/versionwidget.go:Layout"]}
{"id": "C102", "title": "The GUI opens the chosen vault and nothing else", "statement": "The GUI opens the vault given with -v, or without it the one of the settings. If that is not a vault it prints the reason and ends with status 1 before anything is drawn; otherwise it shows an empty menu and asks for the password, and with the right one it shows the items of that vault. Starting and opening writes and requests nothing.", "quantifier": "every path, configuration, file system, vault and password", "why_tests_cant": "all environments", "anchors": ["1pass-term/control/gocui/guicontrol.go:ValidateVault", "1pass-app/gui/gocui.go:Run", "1pass-app/gui/1passwidget.go:unlock"]}
{"id": "C103", "title": "The update check beside the GUI disturbs nothing", "statement": "The GUI looks for updates in a goroutine while the user works. However its steps are interleaved with keys, typing, resizing and file changes of other programs, screen, session, outcome and all files but the last-check file are as if the whole check had happened at one single moment (while the settings directory is there and the path of the vault has no wild cards); it ends after seven steps of its own.", "quantifier": "every schedule of the goroutine and the events, every answer of the server", "why_tests_cant": "schedules", "anchors": ["1pass-app/gui/versionwidget.go:update", "1pass-app/gui/versionwidget.go:Layout", "1pass-term/control/gocui/guicontrol.go:CheckForUpdate", "1pass-up/component/github/updater.go:CheckTimestamp"]}
{"id": "C104", "title": "Keys that wait together act as if they came one by one", "statement": "When several events wait while the GUI is busy (fast typing, key repeat, pasted text), their effect is that of the same events one by one.", "quantifier": "every portioning of every sequence of events", "why_tests_cant": "schedules of input and drawing", "anchors": ["1pass-app/gui/1passwidget.go:unlock", "1pass-app/gui/gocui.go:Run"]}
{"id": "C105", "title": "The terminal shows the state of the GUI", "statement": "After every event the terminal shows what the GUI holds, at no moment a mixture of states; the result of the update check appears when it is there.", "quantifier": "every sequence of events and moment at which the check ends", "why_tests_cant": "schedules", "anchors": ["1pass-app/gui/versionwidget.go:update", "1pass-app/gui/versionwidget.go:Layout", "1pass-app/gui/gocui.go:Run"]}
{"id": "C106", "title": "An update that can work does work, also after one that did not", "statement": "When the server offers a newer release with a readable archive and a matching checksum, and no write fails, update installs the program of the archive, removes its cache and changes nothing else, whatever earlier updates that failed or were stopped at any moment left behind.", "quantifier": "every earlier update with any answers, faults and stopping moment; every content of the cache directory; every later good release", "why_tests_cant": "all crash points and histories", "anchors": ["1pass-core/core/service/updateservice.go:Update", "1pass-up/component/github/updater.go:ExtractArchive", "1pass-up/component/github/updater.go:ReplaceBinary"]}
{"id": "C107", "title": "The GUI and the commands show the same text of an item", "statement": "What the GUI shows of a revealed item is what details prints of it, and what it shows of a selected item is what overview prints of it, up to empty lines before and after.", "quantifier": "every vault, item, time zone and history of the GUI", "why_tests_cant": "all items and histories", "anchors": ["1pass-term/control/cobra/clicontrol.go:GetItemOverview", "1pass-term/control/cobra/clicontrol.go:GetItemDetails", "1pass-app/gui/detailswidget.go:update"]}
{"id": "C108", "title": "Stored texts cannot control the terminal", "statement": "Whatever the texts of an item are, overview and details send no control characters to the terminal but ends of lines.", "quantifier": "every vault and item", "why_tests_cant": "all texts", "anchors": ["1pass-term/control/cobra/clicontrol.go:GetItemOverview", "1pass-term/control/cobra/clicontrol.go:GetItemDetails"]}
{"id": "C109", "title": "configure shows the settings that are in effect", "statement": "Each question of configure shows the present value of the setting it asks for, that of the settings file or the default; the present path of the vault is shown when the user wants to change it.", "quantifier": "every settings file, answer and outcome of the update check", "why_tests_cant": "all settings and answers", "anchors": ["1pass-term/control/cobra/clicontrol.go:Configure", "1pass-parse/repo/file/configrepo.go"]}
{"id": "C110", "title": "The command update works from its start to its end", "statement": "A user who runs update and agrees, when the server offers a newer release with a readable archive and a matching checksum and nothing fails: the command succeeds, the program of that release is installed, its cache is gone, nothing else is changed but the time of the last check, and the terminal shows the offered version, every stage once and in order, and the success.", "quantifier": "every release, settings file, disk, old program and content of the cache directory", "why_tests_cant": "all worlds", "anchors": ["1pass-term/control/cobra/clicontrol.go:Update", "1pass-core/core/service/updateservice.go:Update", "1pass-core/core/service/updateservice.go:CheckForUpdate"]}
{"id": "C111", "title": "The commands work whatever the update server does", "statement": "Whatever the update server answers, and when there is no connection at all, a command that lists or shows something has the same result and shows the same: at most one line about a newer release comes in front, and of the files only the time of the last check differs. A list without a proper release in it must not stop a command either.", "quantifier": "every command, vault, password, settings file, disk, clock and answer of the server", "why_tests_cant": "all worlds, in pairs that differ in the answers of the server", "anchors": ["1pass-term/control/cobra/clicontrol.go:list", "1pass-term/control/cobra/clicontrol.go:overview", "1pass-term/control/cobra/clicontrol.go:details", "1pass-core/core/service/updateservice.go:CheckForUpdate", "1pass-up/component/github/updater.go:CheckForUpdate"]}
{"id": "C112", "title": "One run does not change what the next one shows", "statement": "After any number of runs of the commands that only show something and of the GUI, each to its end or stopped at any moment, and whatever the server answered them, a command has the same result and shows the same as it would have before them, but for a line about a newer release.", "quantifier": "every finite history of runs with arbitrary keys, clocks, answers and crash points; every command, vault, settings file and disk", "why_tests_cant": "all histories, including every crash point of every run", "anchors": ["1pass-term/control/cobra/clicontrol.go:list", "1pass-term/control/cobra/clicontrol.go:overview", "1pass-term/control/cobra/clicontrol.go:details", "1pass-up/component/github/updater.go:CheckTimestamp", "1pass-app/gui/gocui.go:Run"]}
{"id": "C113", "title": "Every part of an item can be brought into sight by scrolling", "statement": "While an item's details are in the focus of the GUI, each arrow key moves what is shown by exactly one line or column, never beyond the first, and leaves the text, the size of the view and the focus as they are; so from every state there is a sequence of arrow keys that brings any line and column of the item into sight. The scrolling does not stop where the item ends: there are arrow keys after which nothing of the item is in sight (finding).", "quantifier": "all running GUI states with details in the focus, items, window sizes, scroll positions, places in the item, arrow key sequences", "why_tests_cant": "Items and scroll positions are unbounded, and a test presses a few keys on one item", "anchors": ["1pass-app/gui/detailswidget.go:scrollDown, scrollUp, scrollLeft, scrollRight, Keybindings", "1pass-app/gui/1passwidget.go:Layout"]}
{"id": "C114", "title": "Every item of an open vault can be found in the GUI", "statement": "Wherever the user is in an open vault in the GUI, there is a sequence of keys that selects any item the vault holds, in the trash or not, shows it beside the list without its secrets, and after TAB shows it with them. The same holds for every item stored in the vault from the moment its password has been typed.", "quantifier": "all running GUI states with an open vault, window sizes that fit, items held or stored", "why_tests_cant": "Reachability for every item of every vault from every state cannot be covered by pressing some keys on an example", "anchors": ["1pass-app/gui/1passwidget.go:showItems, cursorDown, cursorUp, Keybindings", "1pass-app/gui/itemswidget.go:cursorDown, cursorUp, goBack, toggleDetails, Keybindings", "1pass-app/gui/detailswidget.go:update, toggleDetails"]}
{"id": "C115", "title": "The right password always leads back into the vault", "statement": "Whatever was done in the GUI before, such as wrong passwords, an error on the screen or locking: while the vault is on the disk, at most one key leads to the password prompt, and the right password, ENTER and further keys lead to any item stored in the vault.", "quantifier": "all running GUI states, histories, stored vaults, passwords, items; window sizes that fit", "why_tests_cant": "Histories are unbounded; a test can only try some of the states in which a user could be stuck", "anchors": ["1pass-app/gui/1passwidget.go:lock, unlock, closeError, promptForPassword, Keybindings", "1pass-app/gui/itemswidget.go:lock"]}
{"id": "C116", "title": "The GUI ends where CTRL+Q is pressed and nowhere else", "statement": "In every state of the GUI, in every view and at every terminal size, CTRL+Q ends the program without an error, as it was just before and without effect of anything later; no other history of keys, resizes and checks ends it without an error.", "quantifier": "all histories of the GUI, worlds, terminal sizes", "why_tests_cant": "Histories are unbounded", "anchors": ["1pass-app/gui/gocui.go:quit, Run"]}
