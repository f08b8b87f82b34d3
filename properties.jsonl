{"id": "C01", "title": "yEnc round trip between the built-in poster and the downloader", "statement": "For every byte sequence, encoding it with the built-in yEnc encoder (as used by the NServ test server) and feeding the encoded article body to the yEnc decoder used by the downloader returns exactly the original bytes, for every column at which the encoder breaks lines.", "quantifier": "every byte sequence of every length, including sequences full of critical bytes (NUL, CR, LF, '=', leading dots) at line starts and line ends", "why_tests_cant": "the critical-byte / line-start / dot-stuffing interactions are an unbounded product of positions and values; tests fix a handful of payloads", "anchors": ["daemon/nserv/YEncoder.cpp: YEncoder::WriteSegment", "lib/yencode/SimdEncoder/Scalar encoder", "lib/yencode/ScalarDecoder.cpp: decode_scalar", "daemon/nntp/Decoder.cpp: Decoder::DecodeYenc"]}
{"id": "C02", "title": "yEnc decoding does not depend on how the network splits the data", "statement": "Decoding an article body received in any number of consecutive buffers gives the same decoded bytes and the same end-of-article verdict as decoding it received in a single buffer.", "quantifier": "every byte stream and every way of cutting it into consecutive (possibly empty) chunks", "why_tests_cant": "chunk boundaries fall anywhere, in particular inside CR LF . = y sequences; the number of splittings is exponential in the length", "anchors": ["lib/yencode/ScalarDecoder.cpp: decode_scalar", "daemon/nntp/Decoder.cpp: Decoder::DecodeBuffer, DecodeYenc"]}
{"id": "C03", "title": "The fast CRC-32 equals the standard CRC-32", "statement": "The table-driven slicing CRC used for article and file checks returns, for every buffer and every split of the buffer into successive updates, the standard reflected CRC-32 (polynomial 0xEDB88320, init and final xor 0xFFFFFFFF).", "quantifier": "every byte sequence, every split into updates, every buffer alignment", "why_tests_cant": "all lengths, alignments and update boundaries cannot be enumerated", "anchors": ["lib/yencode/SliceCrc.cpp: crc_slice", "daemon/util/Util.cpp: Crc32::Append, Crc32::Finish"]}
{"id": "C04", "title": "Combining article CRCs gives the CRC of the whole file", "statement": "For every two byte sequences a and b, combining CRC-32(a), CRC-32(b) and the length of b gives CRC-32(a ++ b); hence folding over all articles in order gives the CRC of the assembled file.", "quantifier": "every pair (and every finite list) of byte sequences", "why_tests_cant": "the length parameter ranges over all integers and is processed bit by bit; tests only try a few lengths", "anchors": ["daemon/util/Util.cpp: Crc32::Combine", "daemon/nntp/ArticleWriter.cpp: ArticleWriter::CompleteFileParts"]}
{"id": "C05", "title": "Article acceptance: size and checksum are both enforced", "statement": "A yEnc article is reported as successfully decoded only if the header, part and end markers were seen, the number of decoded bytes equals the size announced by the end marker, and (when CRC checking is on and a CRC was announced) the CRC of the decoded bytes equals it; and an article meeting all these conditions is accepted.", "quantifier": "every sequence of lines received for an article", "why_tests_cant": "acceptance is a function of the whole history of received lines, over arbitrary server behaviour", "anchors": ["daemon/nntp/Decoder.cpp: Decoder::ProcessYenc, CheckYenc", "daemon/nntp/ArticleDownloader.cpp: DecodeCheck"]}
{"id": "C06", "title": "XML text encoding is lossless and produces no markup", "statement": "Text encoded for an XML-RPC response contains no raw '<', '>', '&', quote characters or control characters, and decoding the encoded text returns the original text.", "quantifier": "every NUL-free byte string that is valid UTF-8 text without control characters below 32", "why_tests_cant": "all strings; encoding is context dependent for multi-byte sequences", "anchors": ["daemon/util/Util.cpp: WebUtil::XmlEncode, XmlDecode"]}
{"id": "C07", "title": "JSON text encoding is lossless and produces a legal string body", "statement": "Text encoded for a JSON-RPC response contains no raw quote, control byte or unescaped backslash, and decoding the encoded text returns the original text.", "quantifier": "every NUL-free byte string (ASCII range for the exact round trip)", "why_tests_cant": "all strings; escape sequences interact with their neighbours", "anchors": ["daemon/util/Util.cpp: WebUtil::JsonEncode, JsonDecode"]}
{"id": "C08", "title": "URL encoding round trip", "statement": "Decoding a URL-encoded string returns the original string, and the encoded form consists of printable URL characters only.", "quantifier": "every NUL-free byte string", "why_tests_cant": "all strings", "anchors": ["daemon/util/Util.cpp: WebUtil::UrlEncode, UrlDecode"]}
{"id": "C09", "title": "In-place text decoders never read beyond the end of the string", "statement": "The XML, JSON, URL and HTTP-quote decoders, run on a NUL-terminated string, never read past the terminating NUL and never write past it.", "quantifier": "every NUL-terminated byte string an HTTP client may send", "why_tests_cant": "malformed, truncated escapes at the very end of attacker-controlled input; memory errors may not be visible in a test run", "anchors": ["daemon/util/Util.cpp: WebUtil::XmlDecode, JsonDecode, UrlDecode, HttpUnquote, XmlRemoveEntities"]}
{"id": "C10", "title": "JSON value scanner returns whole values", "statement": "When the JSON scanner is positioned on a legal JSON string, number or literal, the returned start and length cover exactly that value.", "quantifier": "every legal JSON string token (any sequence of plain characters and escapes) followed by any text", "why_tests_cant": "arbitrary sequences of escapes", "anchors": ["daemon/util/Util.cpp: WebUtil::JsonNextValue"]}
{"id": "C11", "title": "Base64 decoding inverts standard Base64 encoding", "statement": "Decoding the standard padded Base64 encoding of any byte sequence, with or without line breaks between quartets as allowed, returns the byte sequence; the decoded length never exceeds three quarters of the input length.", "quantifier": "every byte sequence", "why_tests_cant": "all inputs of all lengths modulo 3", "anchors": ["daemon/util/Util.cpp: WebUtil::DecodeBase64, DecodeByteQuartet"]}
{"id": "C12", "title": "Wildcard masks mean what they say", "statement": "A wildcard mask matches a text exactly when the text can be divided according to the mask ('*' any run, '?' one character, '#' one digit, other characters themselves ignoring case), and the reported positions of wildcard groups form such a division.", "quantifier": "every mask and every text", "why_tests_cant": "backtracking matcher over unbounded strings", "anchors": ["daemon/util/Util.cpp: WildMask::Match, WildMask::ExpandArray"]}
{"id": "C13", "title": "Tokenizer yields exactly the non-empty trimmed fields", "statement": "Splitting a list option by its separators returns, in order, exactly the fields between separators after trimming blanks, leaving out the empty ones, and no separator appears in a returned field.", "quantifier": "every text and every set of separators", "why_tests_cant": "all strings", "anchors": ["daemon/util/Util.cpp: Tokenizer::Next, Util::SplitStr, Util::Trim"]}
{"id": "C14", "title": "Command-line splitting honours quotes", "statement": "Splitting a command line returns the arguments separated by blanks, with single-quoted sections kept together and doubled quotes inside them read as one quote.", "quantifier": "every command line built by quoting any list of arguments", "why_tests_cant": "all strings", "anchors": ["daemon/util/Util.cpp: Util::SplitCommandLine"]}
{"id": "C15", "title": "Calendar conversion is exact", "statement": "Converting a broken-down UTC time to seconds agrees with the proleptic Gregorian calendar and inverts the seconds-to-calendar conversion, including out-of-range months used by the scheduler and quota code.", "quantifier": "every date, every number of seconds since the epoch in the supported range", "why_tests_cant": "leap-year rules over an unbounded range of years", "anchors": ["daemon/util/Util.cpp: Util::Timegm (internal_timegm)", "daemon/util/Util.cpp: WebUtil::ParseRfc822DateTime"]}
{"id": "C16", "title": "64-bit sizes survive being stored as two 32-bit halves", "statement": "Splitting a size into high and low 32-bit halves and joining them returns the size, for every 64-bit value.", "quantifier": "every 64-bit value", "why_tests_cant": "2^64 values", "anchors": ["daemon/util/Util.cpp: Util::JoinInt64, Util::SplitInt64"]}
{"id": "C17", "title": "Group statistics agree with the files they summarise", "statement": "After any sequence of pause, resume, article-completed, file-completed and file-deleted operations the paused size, paused file count, remaining size and remaining par count reported for a group equal the sums over its queued files.", "quantifier": "every initial queue in which the sums agree and every finite sequence of operations", "why_tests_cant": "histories of unbounded length", "anchors": ["daemon/queue/DownloadInfo.cpp: FileInfo::SetPaused, NzbInfo::UpdateCompletedStats, UpdateDeletedStats", "daemon/queue/QueueCoordinator.cpp: ArticleCompleted, DeleteFileInfo"]}
{"id": "C18", "title": "Merging and splitting groups conserves the statistics", "statement": "Merging two groups or splitting files off into a new group conserves every size and count: the statistics of the resulting groups are the sums over their own files and add up to the statistics before.", "quantifier": "every pair of groups, every selection of files to split off", "why_tests_cant": "any number of files in any state", "anchors": ["daemon/queue/QueueCoordinator.cpp: MergeQueueEntries, SplitQueueEntries"]}
{"id": "C19", "title": "Moving groups only reorders the queue", "statement": "Moving a selection of groups up, down, to the top or to the bottom, or before/after another group, keeps every group exactly once in the queue and keeps the relative order of the selected groups and of the unselected groups.", "quantifier": "every queue, every selection, every offset, every target", "why_tests_cant": "arbitrary queue lengths and selections", "anchors": ["daemon/queue/QueueEditor.cpp: PrepareList, MoveGroup, MoveGroupsTo, AlignGroups"]}
{"id": "C20", "title": "Sorting groups is a stable sort of the selection", "statement": "Sorting the queue by a criterion keeps every group exactly once, orders it by that criterion, leaves equal groups in their order, and in automatic order mode reverses direction when the queue was already sorted.", "quantifier": "every queue and every sort criterion", "why_tests_cant": "arbitrary queues", "anchors": ["daemon/queue/QueueEditor.cpp: GroupSorter::Execute, GroupSorter::operator()"]}
{"id": "C21", "title": "Next article comes from the best available file", "statement": "The article chosen for download belongs to a file that is not paused, in a group with the highest priority among groups having downloadable files, and no article is handed out twice while it is running or finished.", "quantifier": "every queue state and every history of hand-outs and completions", "why_tests_cant": "all queue shapes and histories", "anchors": ["daemon/queue/QueueCoordinator.cpp: GetNextArticle, GetNextFirstArticle"]}
{"id": "C22", "title": "Identifiers stay unique", "statement": "Identifiers given to groups and files are never reused while an object with that identifier exists, including after a restart that reloads the saved queue and history.", "quantifier": "every sequence of creations, deletions and restarts", "why_tests_cant": "histories of unbounded length", "anchors": ["daemon/queue/DownloadInfo.cpp: NzbInfo::SetId, ResetGenId, GenerateId, FileInfo::SetId"]}
{"id": "C23", "title": "State files survive a crash at any point", "statement": "If the program is killed at any moment while saving a state file, the next start reads either the complete old contents or the complete new contents, provided the file system keeps completed operations.", "quantifier": "every old and new contents, every crash point in the sequence of file operations, and every finite history of saves and crashes", "why_tests_cant": "crash points between every pair of system calls and their histories", "anchors": ["daemon/queue/DiskState.cpp: StateFile::BeginWrite, FinishWrite, BeginRead, FileExists, Discard"]}
{"id": "C24", "title": "Saving and loading a queue entry preserves it", "statement": "Loading a saved group returns every user-visible attribute (name, directories, category, priority, duplicate key, score and mode, statuses, statistics, parameters, files) with the value that was saved.", "quantifier": "every group whose text attributes contain no line breaks and fit the line buffer", "why_tests_cant": "dozens of fields and arbitrary values; only total round trip over all values exposes a swapped field", "anchors": ["daemon/queue/DiskState.cpp: SaveNzbInfo, LoadNzbInfo, SaveServerStats, LoadServerStats"]}
{"id": "C25", "title": "State file lines are written and read within their buffers", "statement": "Writing a line to a state file never touches memory outside the line buffer, and every line written is read back unchanged.", "quantifier": "every text line of every length", "why_tests_cant": "boundary lengths and embedded characters", "anchors": ["daemon/queue/DiskState.cpp: StateDiskFile::PrintLine, ReadLine"]}
{"id": "C26", "title": "Health is a permille that only reflects losses", "statement": "The health reported for a group lies between 0 and 1000, is 1000 exactly when nothing failed, never increases when more data fails, and the critical health never exceeds 1000.", "quantifier": "every combination of sizes satisfying the group's bookkeeping relations", "why_tests_cant": "all 64-bit sizes", "anchors": ["daemon/queue/DownloadInfo.cpp: NzbInfo::CalcHealth, CalcCriticalHealth"]}
{"id": "C27", "title": "Server connections are never shared or overcommitted", "statement": "A connection is never handed to two downloads at the same time, the number of connections in use for a server never exceeds its configured maximum, and a request is answered with a connection of an active server that is not excluded, of the requested level or of a higher one if all active servers in between are optional and blocked; a free usable connection of the level is always found.", "quantifier": "every server configuration and every interleaving of acquire, release, block and reconfigure operations", "why_tests_cant": "all schedules", "anchors": ["daemon/nntp/ServerPool.cpp: GetConnection, LockedGetConnection, FreeConnection, InitConnections"]}
{"id": "C28", "title": "An article is declared failed only after every usable server was tried", "statement": "The download of an article ends as failed only if every active server of every level that may be used was asked for the article or is optional and blocked, and the level search always terminates.", "quantifier": "every server configuration and every pattern of server responses", "why_tests_cant": "all response histories", "anchors": ["daemon/nntp/ArticleDownloader.cpp: ArticleDownloader::Run", "daemon/nntp/ServerPool.cpp: GetMaxNormLevel"]}
{"id": "C29", "title": "Files are assembled with every article at its own offset", "statement": "After all articles of a file have been written, in any order and through any mix of direct writes and cache flushes, the file holds at every article's offset exactly the article's decoded bytes.", "quantifier": "every partition of a file into articles and every completion order", "why_tests_cant": "n! completion orders times cache decisions", "anchors": ["daemon/nntp/ArticleWriter.cpp: Start, Write, Finish, FlushCache, CompleteFileParts"]}
{"id": "C30", "title": "Article cache accounting balances", "statement": "The amount of memory accounted to the article cache always equals the sum of the sizes of the live segments, never exceeds the configured limit, and is zero when all segments are released.", "quantifier": "every sequence of allocate, resize and free operations", "why_tests_cant": "histories of unbounded length", "anchors": ["daemon/nntp/ArticleWriter.cpp: ArticleCache::Alloc, Realloc, Free, ArticleInfo::AttachSegment, DiscardSegment"]}
{"id": "C31", "title": "The best duplicate backup is chosen", "statement": "When a download fails and duplicate checking is by score, the history item returned to the queue is a duplicate backup of the same title with the highest score, strictly better than every successful duplicate and every queued duplicate, and nothing is returned if a duplicate is marked good.", "quantifier": "every queue and history", "why_tests_cant": "arbitrary histories", "anchors": ["daemon/queue/DupeCoordinator.cpp: ReturnBestDupe, SameNameOrKey"]}
{"id": "C32", "title": "Duplicate content is never downloaded twice", "statement": "An added nzb whose content hash equals that of a queued or history item is marked to be skipped, for every queue and history, and the decision does not depend on the other items.", "quantifier": "every queue and history", "why_tests_cant": "arbitrary histories", "anchors": ["daemon/queue/DupeCoordinator.cpp: NzbFound"]}
{"id": "C33", "title": "Feed filter expressions are evaluated as Boolean formulas", "statement": "A filter rule built from terms, negations, parentheses, conjunction and disjunction (not mixing the last two in one group) accepts an item exactly when the formula is true for the item.", "quantifier": "every such formula and every item", "why_tests_cant": "the evaluator is a string-rewriting loop over formulas of unbounded size", "anchors": ["daemon/feed/FeedFilter.cpp: Rule::MatchExpression", "daemon/util/Util.cpp: Util::ReduceStr"]}
{"id": "C34", "title": "Feed filters decide by the first decisive rule", "statement": "An item is accepted, rejected or ignored according to the first rule that is decisive for it (accept/reject that matches, require that does not match); later rules have no effect.", "quantifier": "every list of rules and every item", "why_tests_cant": "all rule lists", "anchors": ["daemon/feed/FeedFilter.cpp: FeedFilter::Match"]}
{"id": "C35", "title": "Volume statistics account for every byte once", "statement": "For every sequence of data reports with arbitrary clock values, the total volume equals the sum of the reported bytes, the per-day volume for a day equals the bytes reported on that day, and the per-second/minute/hour rings never index outside their arrays.", "quantifier": "every sequence of (time, bytes) reports including clock jumps in both directions", "why_tests_cant": "unbounded sequences and clock jumps", "anchors": ["daemon/nntp/StatMeter.cpp: ServerVolume::CalcSlots, AddData"]}
{"id": "C36", "title": "Quota check never faults and sums the billing month", "statement": "The daily and monthly quota usage equals the bytes recorded for today and since the last start day of the quota month; the computation is defined for every clock value.", "quantifier": "every clock value, start day and recorded volume table", "why_tests_cant": "calendar and clock-jump combinations", "anchors": ["daemon/nntp/StatMeter.cpp: CalcQuotaUsage, CalcMonthSlots"]}
{"id": "C37", "title": "Scheduled tasks run once per due time", "statement": "A scheduled task is executed exactly once for every due time that passes between two checks (checks less than 90 minutes apart), and not at other times.", "quantifier": "every task time, weekday mask and every increasing sequence of check times", "why_tests_cant": "all check schedules", "anchors": ["daemon/main/Scheduler.cpp: CheckTasks"]}
{"id": "C38", "title": "The message log keeps the newest messages", "statement": "The in-memory log never holds more messages than configured, holds exactly the newest ones in order, and message identifiers strictly increase.", "quantifier": "every sequence of messages and every limit", "why_tests_cant": "unbounded histories", "anchors": ["daemon/util/Log.cpp: Log::AddMessage"]}
{"id": "C39", "title": "PAR2 arithmetic is the field GF(2^16)", "statement": "Multiplication and division used for PAR2 repair agree with polynomial arithmetic over GF(2) modulo 0x1100B: multiplication is associative, commutative and distributes over addition, and division inverts multiplication for every non-zero divisor.", "quantifier": "every triple of 16-bit values", "why_tests_cant": "2^48 combinations", "anchors": ["lib/par2/galois.h: GaloisTable, Galois::operator*, operator/, pow"]}
{"id": "C40", "title": "Solving the PAR2 repair equations recovers the data", "statement": "If Gaussian elimination of the repair matrix succeeds, the computed coefficients reproduce the missing blocks from the present and recovery blocks for every block contents.", "quantifier": "every set of missing blocks, every recovery block selection and every data contents", "why_tests_cant": "all data and all matrices", "anchors": ["lib/par2/reedsolomon.h: ReedSolomon::Compute, GaussElim, Process"]}
{"id": "C41", "title": "Text buffers never overflow", "statement": "The fixed-size and growing string buffers never write outside their storage and always hold a terminated prefix of what was appended.", "quantifier": "every sequence of set, append and format operations", "why_tests_cant": "unbounded histories and lengths", "anchors": ["daemon/util/NString.cpp: BString::Append, BString::AppendFmt, StringBuilder::Append"]}
{"id": "C42", "title": "Group parameters behave as a case-insensitive map", "statement": "After any sequence of parameter assignments, looking up a parameter returns the value assigned last (or nothing when last assigned an empty value), names are unique ignoring case, and other parameters are unaffected.", "quantifier": "every sequence of assignments", "why_tests_cant": "unbounded histories", "anchors": ["daemon/queue/DownloadInfo.cpp: NzbParameterList::SetParameter, Find, CopyFrom"]}
{"id": "C43", "title": "Per-server statistics add up", "statement": "Adding and subtracting per-server article counts behaves as pointwise addition and subtraction of functions from servers to counts, with one entry per server.", "quantifier": "every sequence of operations on statistic lists", "why_tests_cant": "unbounded histories", "anchors": ["daemon/queue/DownloadInfo.cpp: ServerStatList::StatOp, ListOp"]}
{"id": "C44", "title": "File names taken from the network are made safe", "statement": "A file name produced by the sanitiser contains no path separator, reserved or control character, does not end in a dot or blank, and a name that is already safe is unchanged.", "quantifier": "every byte string received from the network", "why_tests_cant": "all strings", "anchors": ["daemon/util/FileSystem.cpp: MakeValidFilename, ReservedChar"]}
{"id": "C45", "title": "Web access requires valid credentials", "statement": "A request to the control interface is authorised only if no control password is set, or its address is authorised, or it carries a valid token or a configured user name and password pair; the granted access level is the one of the matched pair.", "quantifier": "every request and configuration", "why_tests_cant": "all combinations of headers, options and users", "anchors": ["daemon/remote/WebServer.cpp: WebProcessor::CheckCredentials, ParseUrl"]}
{"id": "C46", "title": "The web server never serves files outside its directory", "statement": "A static file request is answered from a path inside the web directory: a URL that passes the filter has no '..' component and no character outside the allowed set.", "quantifier": "every URL", "why_tests_cant": "all strings", "anchors": ["daemon/remote/WebServer.cpp: WebProcessor::Dispatch"]}
{"id": "C47", "title": "Post-processing status text is consistent with the outcome", "statement": "The status shown for a finished download is a total function of its outcome fields: it says SUCCESS only if no stage failed, FAILURE or DELETED exactly for failed or deleted downloads.", "quantifier": "every combination of status fields", "why_tests_cant": "thousands of combinations of nine status fields", "anchors": ["daemon/queue/DownloadInfo.cpp: NzbInfo::MakeTextStatus, IsDupeSuccess"]}
{"id": "C48", "title": "Article decoding does not depend on how the network splits the article", "statement": "For every well-formed multi-part yEnc article, the bytes handed to the file writer, the end-of-article flag, the verdict, the file name, size and position are functions of the received byte stream, whatever the sizes of the received buffers.", "quantifier": "every byte stream and every way of cutting it into received buffers", "why_tests_cant": "buffer boundaries are decided by the network; the header search works on buffers, so only a proof over all splittings covers it", "anchors": ["daemon/nntp/Decoder.cpp: Decoder::DecodeBuffer, ProcessYenc, DecodeYenc", "daemon/nntp/ArticleDownloader.cpp: ArticleDownloader::Download"]}
{"id": "C49", "title": "A retried article is judged like a fresh one", "statement": "The verdict and the decoded bytes of an article depend only on the data received in this attempt, not on what an earlier failed attempt of the same article received.", "quantifier": "every pair of an aborted first attempt and a second attempt", "why_tests_cant": "requires quantifying over all leftovers of a previous attempt", "anchors": ["daemon/nntp/Decoder.cpp: Decoder::Clear, DetectFormat"]}
{"id": "C50", "title": "UUEncoded articles are decoded", "statement": "For every article posted with UUEncode the bytes written to the file are the decoded bytes.", "quantifier": "every UUEncoded article and every splitting into buffers", "why_tests_cant": "needs all payloads and buffer layouts", "anchors": ["daemon/nntp/Decoder.cpp: Decoder::DecodeUx, DecodeBuffer"]}
{"id": "C51", "title": "End of article in raw mode", "statement": "In raw mode the end of the article is reported exactly when the received stream contains CR LF dot CR LF, however the stream is split into buffers.", "quantifier": "every byte stream and every splitting", "why_tests_cant": "the terminator can straddle buffers in exponentially many ways", "anchors": ["daemon/nntp/Decoder.cpp: Decoder::ProcessRaw"]}
{"id": "C52", "title": "The text encoders stay inside the buffer they reserve", "statement": "The number of bytes written by the XML, JSON, URL and Latin-1 encoders never exceeds the size computed beforehand for the result buffer.", "quantifier": "every byte string", "why_tests_cant": "the reservation is computed by a separate loop from the copy loop, over every combination of bytes and broken multi-byte sequences", "anchors": ["daemon/util/Util.cpp: WebUtil::XmlEncode, JsonEncode, UrlEncode, Latin1ToUtf8"]}
{"id": "C53", "title": "Latin-1 text is converted to the UTF-8 of its characters", "statement": "Converting a Latin-1 string returns the UTF-8 encoding of each of its characters, in order.", "quantifier": "every byte string", "why_tests_cant": "all strings", "anchors": ["daemon/util/Util.cpp: WebUtil::Latin1ToUtf8"]}
{"id": "C54", "title": "A sort command never touches groups it does not name", "statement": "Sorting with a list of group ids none of which is in the queue leaves the queue as it is.", "quantifier": "every queue, every id list, every criterion", "why_tests_cant": "the ids may have gone stale between the client's view and the command", "anchors": ["daemon/queue/QueueEditor.cpp: SortGroups, GroupSorter::operator()"]}
{"id": "C55", "title": "File sort order is a valid ordering", "statement": "The comparison used to sort the files of a group is a strict weak order, so that std::sort is defined and its result is sorted.", "quantifier": "every three file names", "why_tests_cant": "needs a cycle among three names; a test of a sorted list does not reveal an invalid order", "anchors": ["daemon/queue/QueueEditor.cpp: SortGroupFiles"]}
{"id": "C56", "title": "Pausing extra par files keeps the smallest one", "statement": "Pausing all par files pauses exactly the par files; pausing extra par files pauses exactly the recovery volumes when an index par file exists, and otherwise all volumes except one of the smallest.", "quantifier": "every file list", "why_tests_cant": "arbitrary file lists with ties in size", "anchors": ["daemon/queue/QueueEditor.cpp: PausePars"]}
{"id": "C57", "title": "Reordering files follows the given order", "statement": "Reordering the files of a group puts the named files first in the order they are named and keeps the order of the remaining files; every file stays in the group exactly once.", "quantifier": "every file list and every list of ids", "why_tests_cant": "arbitrary lists, ids of other groups, repeated ids", "anchors": ["daemon/queue/QueueEditor.cpp: ReorderFiles"]}
{"id": "C58", "title": "A completed file is never thrown away again", "statement": "Once a file was completed and counted as such, finishing the download of the group neither deletes its output nor takes its articles out of the statistics.", "quantifier": "every group and every history of operations, with direct renaming running or not", "why_tests_cant": "needs a particular combination of direct renaming, a one-article par2-file and completion order", "anchors": ["daemon/queue/QueueCoordinator.cpp: DeleteFileInfo, DiscardDirectRename, DiscardDownloadedArticles", "daemon/queue/DownloadInfo.cpp: NzbInfo::IsDownloadCompleted"]}
{"id": "C59", "title": "Splitting moves exactly the selected files", "statement": "Splitting files off a group puts the selected files, in the order selected, into the new group and leaves the others; the new group contains only files.", "quantifier": "every group and every selection of files", "why_tests_cant": "arbitrary selections, including files of several groups", "anchors": ["daemon/queue/QueueCoordinator.cpp: SplitQueueEntries", "daemon/util/Container.h: Remove"]}
{"id": "C60", "title": "Total script status", "statement": "The total status of the post-processing scripts is failure when one failed, else success when one succeeded, else none.", "quantifier": "every list of script statuses", "why_tests_cant": "lists of any length", "anchors": ["daemon/queue/DownloadInfo.cpp: ScriptStatusList::CalcTotalStatus"]}
{"id": "C61", "title": "Recent volume statistics cover the last minute, hour and day", "statement": "With a clock that does not run backwards, the per-second, per-minute and per-hour volumes of a server hold for each of the last 60 seconds, 60 minutes and 24 hours exactly the bytes reported in it.", "quantifier": "every sequence of reports with non-decreasing clock", "why_tests_cant": "stale slots only show for particular spacings of reports", "anchors": ["daemon/nntp/StatMeter.cpp: ServerVolume::AddData"]}
{"id": "C62", "title": "Quota periods follow each other without gap or overlap", "statement": "For every quota start day from 1 to 31, each day belongs to the period of the previous day or starts a new period; months too short for the start day included.", "quantifier": "every start day and every date", "why_tests_cant": "calendar combinations", "anchors": ["daemon/nntp/StatMeter.cpp: CalcMonthSlots"]}
{"id": "C63", "title": "Speed meter", "statement": "The download speed is computed from exactly the bytes of the latest (at most 30) seconds with readings, the momentary speed is that of the current second, and neither is negative.", "quantifier": "every sequence of readings", "why_tests_cant": "the ring wraps around and skips idle seconds", "anchors": ["daemon/nntp/StatMeter.cpp: AddSpeedReading, CalcCurrentDownloadSpeed, CalcMomentaryDownloadSpeed"]}
{"id": "C64", "title": "Scheduled commands are replayed in order after a start or clock change", "statement": "At the first check, and after a clock change of more than 90 minutes or backwards, each task is executed at all its due times of the last week in chronological order, without starting processes or fetching feeds.", "quantifier": "every task list and every clock value", "why_tests_cant": "all combinations of task times and weekdays over a week", "anchors": ["daemon/main/Scheduler.cpp: CheckTasks, FirstCheck, ExecuteTask"]}
{"id": "C65", "title": "The scheduler wakes at the next full minute", "statement": "The planned wait is between 1 and 60 seconds and ends when the clock shows a full minute.", "quantifier": "every clock value", "why_tests_cant": "all times including the end of hours, days and years", "anchors": ["daemon/main/Scheduler.cpp: ScheduleNextWork", "daemon/util/Util.cpp: Timegm"]}
{"id": "C66", "title": "Polling the message log", "statement": "The remote call log(IDFrom, 0) returns exactly the messages with an identifier not below IDFrom, and log(0, N) the N newest messages.", "quantifier": "every history of messages, clearing and option reloads", "why_tests_cant": "depends on identifiers being consecutive in every reachable state", "anchors": ["daemon/remote/XmlRpc.cpp: LogXmlCommand::Execute", "daemon/util/Log.cpp"]}
{"id": "C67", "title": "Volume totals of servers add up", "statement": "The total volume of each server is the sum of its reports, and the entry for all servers the sum of all reports.", "quantifier": "every history of reports and clock values", "why_tests_cant": "unbounded histories with clock jumps", "anchors": ["daemon/nntp/StatMeter.cpp: AddServerData"]}
{"id": "C68", "title": "Words of feed filters", "statement": "A word in a filter rule is true for an item exactly when it matches, as a wildcard mask, one of the words of the title; a word with punctuation in it or enclosed in asterisks when it matches any part of the title.", "quantifier": "every word and every title", "why_tests_cant": "masks and titles of any length", "anchors": ["daemon/feed/FeedFilter.cpp: Term::MatchText, Term::Compile"]}
{"id": "C69", "title": "Size and age terms of feed filters", "statement": "size: and age: terms with a comparison sign, a whole number and a unit compare the size or age of the item with that number of units.", "quantifier": "every sign, number and unit, every item", "why_tests_cant": "unbounded numbers, all spellings of units", "anchors": ["daemon/feed/FeedFilter.cpp: Term::ParseSizeParam, ParseAgeParam, MatchValue"]}
{"id": "C70", "title": "References in feed filter options", "statement": "In the options of a filter rule ${n} stands for the text matched by the n-th wildcard group of the rule.", "quantifier": "every rule and every item", "why_tests_cant": "all masks and texts, including wildcards matching nothing", "anchors": ["daemon/feed/FeedFilter.cpp: Term::FillWildMaskRefValues, Rule::ExpandRefValues"]}
{"id": "C71", "title": "Compiling a feed filter stays inside the filter text", "statement": "No filter text makes the filter compiler read outside of the text.", "quantifier": "every filter text", "why_tests_cant": "all malformed texts", "anchors": ["daemon/feed/FeedFilter.cpp: Term::Compile, Rule::Compile"]}
{"id": "C72", "title": "Feed items are queued once", "statement": "Over all fetches of all feeds an item is added to the queue at most once as long as it is in the feed history, and cleaning the history keeps everything the feeds still list.", "quantifier": "every sequence of fetches, downloads and clean-ups", "why_tests_cant": "unbounded sequences with arbitrary timing", "anchors": ["daemon/feed/FeedCoordinator.cpp: ProcessFeed, DownloadQueueUpdate, CleanupHistory"]}
{"id": "C73", "title": "Retry intervals of failed feeds", "statement": "After the n-th failure in a row a feed is fetched again after min(2^(n-1) minutes, interval), after a success after the interval.", "quantifier": "every number of failures and every interval", "why_tests_cant": "unbounded number of failures", "anchors": ["daemon/feed/FeedCoordinator.cpp: SchedulerNextUpdate"]}
{"id": "C74", "title": "As many recovery blocks as missing blocks suffice", "statement": "When at least as many recovery blocks are at hand as data blocks are missing, the computation of the repair matrix succeeds.", "quantifier": "every set of missing blocks and every selection of recovery blocks", "why_tests_cant": "all matrices over the field", "anchors": ["lib/par2/reedsolomon.h: ReedSolomon::Compute, GaussElim", "lib/par2/reedsolomon.cpp: SetInput, SetOutput"]}
{"id": "C75", "title": "A save that does not fit on the disk keeps the previous state", "statement": "When the disk is full while a state file is saved, the next start reads the state saved before.", "quantifier": "every old and new contents and every amount of free space", "why_tests_cant": "every point at which the disk can fill up", "anchors": ["daemon/queue/DiskState.cpp: StateDiskFile::PrintLine, StateFile::FinishWrite"]}
{"id": "C76", "title": "No download is forgotten by a restart", "statement": "Wherever the program is killed, after the restart every download that was in the queue or the history and was not removed is in the queue or the history.", "quantifier": "every queue, history and progress state, and every point of a save", "why_tests_cant": "all crash points between the operations on three files", "anchors": ["daemon/queue/DiskState.cpp: SaveDownloadQueue, SaveDownloadProgress, LoadDownloadQueue, DownloadQueueExists", "daemon/queue/QueueCoordinator.cpp: Load"]}
{"id": "C77", "title": "Post-processing after a restart", "statement": "A group that was in post-processing when the program stopped is processed from the start, except that a group whose scripts were already running is taken as finished.", "quantifier": "every group and every stage", "why_tests_cant": "every stage and a restart in it", "anchors": ["daemon/queue/DiskState.cpp: SaveNzbInfo, LoadNzbInfo", "daemon/postprocess/PrePostProcessor.cpp: SanitisePostQueue"]}
{"id": "C78", "title": "A partially downloaded file resumes where it was", "statement": "Loading the saved state of a partially downloaded file restores counts, sizes and the state of every article (running ones start again); a file loaded as not completed always has an article left to download.", "quantifier": "every article list; for the last part every file contents", "why_tests_cant": "arbitrary article lists and damaged files", "anchors": ["daemon/queue/DiskState.cpp: SaveFileState, LoadFileState"]}
{"id": "C79", "title": "File descriptions survive a restart", "statement": "Loading a saved file description gives back subject, name, sizes, time, newsgroups and all articles with their message identifiers.", "quantifier": "every file description whose texts fit a line", "why_tests_cant": "arbitrary lists of groups and articles", "anchors": ["daemon/queue/DiskState.cpp: SaveFileInfo, LoadFileInfo"]}
{"id": "C80", "title": "Server levels are normalised", "statement": "After a start and after every change of the configuration the server levels in use are renumbered 0, 1, ..., max without gaps and in the order of the configured levels; servers of the lowest level always take part, of the others exactly the active ones with connections.", "quantifier": "every server configuration and every history of requests, blocks, activations and changes", "why_tests_cant": "all configurations and histories", "anchors": ["daemon/nntp/ServerPool.cpp: NormalizeLevels, InitConnections, Changed"]}
{"id": "C81", "title": "Each server gets the configured number of retries", "statement": "While an article is downloaded, a server that answers with errors is given up only after ArticleRetries failed answers, unless it does not have the article; the number of answered requests is bounded by ArticleRetries for every server.", "quantifier": "every server configuration and every pattern of server responses", "why_tests_cant": "all response histories", "anchors": ["daemon/nntp/ArticleDownloader.cpp: ArticleDownloader::Run"]}
{"id": "C82", "title": "Dates of feed items", "statement": "The date of a feed item in the form \"Wed, 26 Jun 2013 01:02:54 -0600\" is turned into the moment it names: seconds since 1970 of the calendar date and time, corrected by the zone.", "quantifier": "every weekday word, date, time and numeric zone", "why_tests_cant": "arbitrary dates and zones", "anchors": ["daemon/util/Util.cpp: WebUtil::ParseRfc822DateTime, Util::Timegm"]}
{"id": "C83", "title": "Critical health tells repairable from unrepairable", "statement": "For a download whose par files were all fetched, the health is never below the critical health while the failed data does not exceed the par data, and the health is below the critical health once the failed data exceeds the par data by at least a thousandth of the data. In particular the health check never gives up on a download the par files could repair.", "quantifier": "For all sizes with par <= total, failed parts within their sizes.", "why_tests_cant": "The two figures are computed with separate roundings over 64-bit sizes; the agreement at the border for all sizes cannot be tried out.", "anchors": ["daemon/queue/DownloadInfo.cpp:CalcHealth", "daemon/queue/DownloadInfo.cpp:CalcCriticalHealth", "daemon/queue/QueueCoordinator.cpp:CheckHealth"]}
{"id": "C84", "title": "Duplicate handling and the shown status agree on success", "statement": "A download whose status text says SUCCESS counts as a success when deciding whether its duplicates are still needed; one whose status says FAILURE or DELETED does not.", "quantifier": "For all combinations of par, unpack, move, delete, mark, url and script results and all sizes.", "why_tests_cant": "Two functions written apart classify tens of thousands of combinations of results.", "anchors": ["daemon/queue/DownloadInfo.cpp:IsDupeSuccess", "daemon/queue/DownloadInfo.cpp:MakeTextStatus"]}
{"id": "C85", "title": "Downloads stay inside their destination directory", "statement": "The directory of a download lies strictly below the directory of its category, or below the general destination directory; the intermediate directory lies strictly below the configured one.", "quantifier": "For all names, categories (also those sent by a web server) and configured directories.", "why_tests_cant": "Names and categories come from the network; path traversal hides in unusual strings.", "anchors": ["daemon/queue/DownloadInfo.cpp:BuildFinalDirName", "daemon/queue/DownloadInfo.cpp:MakeNiceNzbName", "daemon/queue/UrlCoordinator.cpp:ProcessHeader"]}
{"id": "C86", "title": "A new file name never collides with an existing file", "statement": "When a file would overwrite another, it gets the first free numbered name, keeping its extension (and the volume part of par2-files); the search ends.", "quantifier": "For all directories, names and sets of existing files.", "why_tests_cant": "All sets of existing files.", "anchors": ["daemon/util/FileSystem.cpp:MakeUniqueFilename", "daemon/util/FileSystem.cpp:RenameBak"]}
{"id": "C87", "title": "Files being written are not taken from the incoming directory", "statement": "A file of the incoming directory is taken only if its size was the same at the previous look and it did not change during the last NzbDirFileAge seconds.", "quantifier": "For all histories of looks at all files.", "why_tests_cant": "Depends on the timing of another program which writes the file.", "anchors": ["daemon/queue/Scanner.cpp:CanProcessFile", "daemon/queue/Scanner.cpp:DropOldFiles"]}
{"id": "C88", "title": "URLs are fetched in the order of priority", "statement": "The URL fetched next has the highest priority among the queued URLs which are neither running nor deleted, and is the first of these; nothing is fetched only if none waits.", "quantifier": "For all queues.", "why_tests_cant": "Arbitrary queues.", "anchors": ["daemon/queue/UrlCoordinator.cpp:GetNextUrl"]}
{"id": "C89", "title": "A new download is refused exactly for the documented reasons", "statement": "With duplicate check, a new download is marked to be skipped exactly if it is a copy of a queued or finished one, a duplicate is marked good, or (in score mode) a success or a queued duplicate has at least its score. Otherwise it replaces the queued duplicates of lower score and nothing else changes.", "quantifier": "For all queues, histories and new downloads.", "why_tests_cant": "All combinations of names, keys, scores, modes and states in lists of any length.", "anchors": ["daemon/queue/DupeCoordinator.cpp:NzbFound", "daemon/queue/DupeCoordinator.cpp:SameNameOrKey"]}
{"id": "C90", "title": "Hiding items of the history does not lose duplicate protection", "statement": "Replacing an item of the history by its hidden record changes neither the key and score adopted by later downloads nor whether they are refused; marking an item as good hides its backups and nothing else.", "quantifier": "For all queues, histories and later downloads.", "why_tests_cant": "Compares two histories under all later additions.", "anchors": ["daemon/queue/HistoryCoordinator.cpp:HistoryHide", "daemon/queue/DupeCoordinator.cpp:HistoryCleanup"]}
{"id": "C91", "title": "Data from a connection does not depend on how it arrives", "statement": "The lines and blocks read from a connection are the bytes of the peer in order, cut at line ends and requested sizes; a downloading loop gets every byte exactly once, and sending transmits everything, however the network splits the data.", "quantifier": "For all streams, all splits into packets, all sequences of reading calls and all buffer sizes.", "why_tests_cant": "The splits into packets are chosen by the network and cannot be enumerated.", "anchors": ["daemon/connect/Connection.cpp:ReadLine", "daemon/connect/Connection.cpp:Recv", "daemon/connect/Connection.cpp:Send", "daemon/connect/Connection.cpp:WriteLine"]}
{"id": "C92", "title": "Each web request gets one response and the connection stays in step", "statement": "A well-formed request gets exactly one response and uses up exactly its own bytes, so that on a kept connection the next request is read from its beginning.", "quantifier": "For all well-formed requests, configurations and whatever follows on the connection.", "why_tests_cant": "Needs all header combinations and all later contents of the connection.", "anchors": ["daemon/remote/WebServer.cpp:Execute", "daemon/remote/RemoteServer.cpp:ServWebRequest"]}
{"id": "C93", "title": "Heads of web responses are complete", "statement": "The head of a response ends with an empty line and declares the length of the body.", "quantifier": "For all requests and header values.", "why_tests_cant": "Depends on lengths of all header values together.", "anchors": ["daemon/remote/WebServer.cpp:SendBodyResponse"]}
{"id": "C94", "title": "Remote procedures respect the rights of the user", "statement": "A user for adding can only add downloads and ask for the version; a restricted user cannot write the configuration and does not see user names and passwords; a GET request runs only procedures which change nothing.", "quantifier": "For all protocols, request texts and users.", "why_tests_cant": "All request texts, including nested calls.", "anchors": ["daemon/remote/XmlRpc.cpp:Dispatch", "daemon/remote/XmlRpc.cpp:MutliCall", "daemon/remote/XmlRpc.cpp:CreateCommand", "daemon/main/Options.cpp:Restricted"]}
{"id": "C95", "title": "Every web request is processed in a defined way", "statement": "No request text makes the web server read outside of its buffers.", "quantifier": "For all request texts and configurations.", "why_tests_cant": "All byte sequences.", "anchors": ["daemon/remote/WebServer.cpp:ParseUrl", "daemon/remote/WebServer.cpp:ParseHeaders", "daemon/util/Util.cpp:UrlDecode"]}
{"id": "C96", "title": "Data of articles stays inside its memory", "statement": "Whatever sizes and places an article announces and however much data follows, the data is only put into the memory which was reserved for the article, or into a file that is open.", "quantifier": "For all sequences of articles, attempts, flushes and all announced sizes.", "why_tests_cant": "All sequences of attempts and sizes; undefined behaviour is not visible in a test.", "anchors": ["daemon/nntp/ArticleWriter.cpp:Start", "daemon/nntp/ArticleWriter.cpp:Write", "daemon/nntp/ArticleWriter.cpp:Finish", "daemon/nntp/Decoder.cpp:Clear"]}
{"id": "C97", "title": "A new download has each article of its nzb-file once", "statement": "Adding a well-formed nzb-file gives a download with those files of the nzb-file that have segments, in the same order; every file has each part number of the nzb-file once, in order of part numbers, with the size and message identifier that the (last) segment of this number states, and the stated groups, subject and date.", "quantifier": "For all nzb-files, all orders and repetitions of segments.", "why_tests_cant": "All combinations of files and segments with repeated, missing and unsorted part numbers.", "anchors": ["daemon/queue/NzbFile.cpp:Parse_StartElement", "daemon/queue/NzbFile.cpp:Parse_EndElement", "daemon/queue/NzbFile.cpp:AddArticle", "daemon/queue/NzbFile.cpp:AddFileInfo", "daemon/queue/NzbFile.cpp:ProcessFiles"]}
{"id": "C98", "title": "Sizes and counters of a new file add up", "statement": "A file gets into the queue exactly if it has an article. Its remaining size is the sum of its article sizes, its missing size is one article size for each part number without article, its size is the sum of both, and the counters of articles agree.", "quantifier": "For all sets of articles and all part counts in subjects.", "why_tests_cant": "All sizes and numbers of parts; overflow only with extreme values.", "anchors": ["daemon/queue/NzbFile.cpp:AddFileInfo", "daemon/queue/NzbFile.cpp:AddArticle"]}
{"id": "C99", "title": "Every nzb-file is read in a defined way", "statement": "No nzb-file that the XML parser accepts makes the program use memory it must not use.", "quantifier": "For all sequences of elements, attributes and texts.", "why_tests_cant": "Nested, repeated and misplaced elements in all combinations.", "anchors": ["daemon/queue/NzbFile.cpp:Parse_StartElement", "daemon/queue/NzbFile.cpp:Parse_EndElement", "daemon/queue/NzbFile.cpp:Parse_Content"]}
{"id": "C100", "title": "The name of a file is read from its subject", "statement": "A file name in quotes is taken from the subject as it stands; without quotes the name is the last word that looks like a file name, else the last word, the counter of parts being left out; there is always some name.", "quantifier": "For all subjects.", "why_tests_cant": "All texts, including odd quotes and very long words.", "anchors": ["daemon/queue/NzbFile.cpp:ParseSubject", "daemon/queue/NzbFile.cpp:ProcessFilenames"]}
{"id": "C101", "title": "Files of a new download can be told apart", "statement": "The files of a new download with different subjects can be told apart by name: not more than two of them share a name, all names come from the subjects in the same way, and the names are usable as file names.", "quantifier": "For all lists of subjects.", "why_tests_cant": "All combinations of equal, similar and empty names.", "anchors": ["daemon/queue/NzbFile.cpp:BuildFilenames", "daemon/queue/NzbFile.cpp:HasDuplicateFilenames"]}
{"id": "C102", "title": "The content fingerprint of a download does not depend on the order in its nzb-file", "statement": "Two nzb-files with the same files in another order have the same fingerprints; the fingerprint is the chained hash of all message identifiers, and the filtered fingerprint leaves out files with ignored extensions and is only used if enough remains.", "quantifier": "For all lists of files and permutations of them.", "why_tests_cant": "All permutations of files and articles.", "anchors": ["daemon/queue/NzbFile.cpp:CalcHashes", "daemon/util/Util.cpp:HashBJ96", "daemon/util/Util.cpp:MatchFileExt"]}
{"id": "C103", "title": "A password in an nzb-file is read as it was written", "statement": "The password in the head of an nzb-file is passed on exactly as it was written, after decoding of XML entities.", "quantifier": "For all passwords and all nzb-files.", "why_tests_cant": "All characters, escapes and lengths of heads.", "anchors": ["daemon/queue/NzbFile.cpp:ReadPassword", "daemon/util/Util.cpp:XmlDecode"]}
{"id": "C104", "title": "A web download succeeds only with the complete content", "statement": "A download from a web server counts as finished only if its file holds the whole body of the answer: as many bytes as declared or, without declared length, all bytes until the regular end; if that many arrive, in whatever pieces, it does finish with exactly these; otherwise no file is left.", "quantifier": "For all answers, all divisions of the stream and all ends of the connection.", "why_tests_cant": "All ways to split and cut a stream.", "anchors": ["daemon/connect/WebDownloader.cpp:DownloadBody", "daemon/connect/WebDownloader.cpp:DownloadHeaders", "daemon/connect/WebDownloader.cpp:ProcessHeader"]}
{"id": "C105", "title": "The parts of an address are read as written", "statement": "Protocol, user, password, host, port and resource of an address are those written in it.", "quantifier": "For all well-formed addresses.", "why_tests_cant": "All combinations of present and missing parts and of separators inside of them.", "anchors": ["daemon/util/Util.cpp:URL::ParseUrl"]}
{"id": "C106", "title": "Redirections lead where the server says", "statement": "An answer that redirects is followed to the address it names; an address without protocol is one of the same host, relative to its root or to the directory of the old resource; at most five redirections are followed.", "quantifier": "For all addresses, locations and answers.", "why_tests_cant": "All combinations of old address and location; endless redirection.", "anchors": ["daemon/connect/WebDownloader.cpp:ParseRedirect", "daemon/connect/WebDownloader.cpp:DownloadWithRedirects"]}
{"id": "C107", "title": "The name of a web download is the one the server gives", "statement": "The file name in the answer of a web server is taken without its quotes and never contains a path, whatever the server sends; reading it is always defined.", "quantifier": "For all headers.", "why_tests_cant": "All texts a server may send.", "anchors": ["daemon/connect/WebDownloader.cpp:ParseFilename", "daemon/util/Util.cpp:WebUtil::HttpUnquote"]}
{"id": "C108", "title": "Web downloads are repeated as configured", "statement": "A server that cannot be reached is tried UrlRetries times and at least ten times, a failing one UrlRetries times and at least once, a missing file is asked for once; every download ends after a bounded number of requests, and success means that one of them succeeded.", "quantifier": "For all settings and all behaviours of servers over time.", "why_tests_cant": "All histories of failures and redirections.", "anchors": ["daemon/connect/WebDownloader.cpp:Run"]}
{"id": "C109", "title": "Requests to web servers are complete", "statement": "The request sent to a web server names the resource, the host and, if it is not the usual one, the port, in complete lines, and presents the user and password of the address.", "quantifier": "For all addresses.", "why_tests_cant": "All lengths of addresses.", "anchors": ["daemon/connect/WebDownloader.cpp:SendHeaders"]}
{"id": "C110", "title": "A repair asks for the par2-files it needs and no more", "statement": "When a repair lacks recovery blocks, par2-files of the download with together at least that many blocks are resumed if there are such; none of them could be spared, files of the same par-set are taken if they suffice, and nothing else in the queue changes. If there are too few blocks nothing is resumed, the number of available blocks is reported, and the repair waits only if a par2-file is still to be downloaded.", "quantifier": "For all queues, numbers of blocks and orders of equally large files.", "why_tests_cant": "All sets of block counts and all mixtures of par-sets.", "anchors": ["daemon/postprocess/Repair.cpp:RequestMorePars", "daemon/postprocess/Repair.cpp:FindPars"]}
{"id": "C111", "title": "Par2-files are recognised by their names", "statement": "The par-set of a file and its number of blocks are read from its name as par2-programs make them, in upper or lower case and also inside of a subject; other files are not taken for par2-files; two files belong together just if their base names are equal.", "quantifier": "For all names.", "why_tests_cant": "All names; letter cases; texts after the name.", "anchors": ["daemon/postprocess/ParParser.cpp:ParseParFilename", "daemon/postprocess/ParParser.cpp:SameParCollection"]}
{"id": "C112", "title": "Every par-set of a directory is found once", "statement": "The scan of a directory for par-sets yields the first file of each par-set and nothing else.", "quantifier": "For all directories.", "why_tests_cant": "All orders and mixtures of names.", "anchors": ["daemon/postprocess/ParParser.cpp:FindMainPars"]}
{"id": "C113", "title": "The par-checker does not wait for nothing", "statement": "While it lacks blocks the par-checker either can go on or a par2-file is still to be downloaded; it does not spin; every downloaded file gets loaded; it gives up only when nothing is left to wait for and everything that came is loaded.", "quantifier": "For all interleavings of the checker with downloaded and deleted files.", "why_tests_cant": "Interleavings of two threads.", "anchors": ["daemon/postprocess/ParChecker.cpp:ProcessMorePars", "daemon/postprocess/ParChecker.cpp:LoadMorePars", "daemon/postprocess/Repair.cpp:AddPar"]}
{"id": "C114", "title": "Post-processing of a download does not go on for ever", "statement": "For every download the jobs started are bounded by what happened to it: at most one script job for each completion, one move, one clean-up and one rar-renaming in all, a bounded number of par-checks and unpacks for each completion and each time new par2-files turn up.", "quantifier": "For all sequences of events: downloads completing, jobs ending with any result, stops, changes on disk, deletions, looks at the queue.", "why_tests_cant": "Par-check, repair and unpack request each other in loops; all orders of events.", "anchors": ["daemon/postprocess/PrePostProcessor.cpp:StartJob", "daemon/postprocess/PrePostProcessor.cpp:CheckRequestPar", "daemon/postprocess/Unpack.cpp:Completed"]}
{"id": "C115", "title": "A job of post-processing starts only when it may", "statement": "Unpacking starts only after the check of the download is settled and not if it failed; cleaning up and moving only after unpacking is settled, and only for good downloads; scripts last. While post-processing is paused only downloads with force priority are processed; no job starts while the download is still loading or other work on it is under way.", "quantifier": "For all reachable states of the queue.", "why_tests_cant": "All combinations of statuses and options.", "anchors": ["daemon/postprocess/PrePostProcessor.cpp:StartJob", "daemon/postprocess/PrePostProcessor.cpp:PickNextJob"]}
{"id": "C116", "title": "PostStrategy limits the number of jobs", "statement": "With the strategies sequential, balanced, aggressive and rocket never more than 1, 2, 3 and 6 jobs are at work, and never more than 1, 1, 1 and 2 of them check or repair.", "quantifier": "For all sequences of events.", "why_tests_cant": "Concurrency of jobs with the queue over unlimited executions.", "anchors": ["daemon/postprocess/PrePostProcessor.cpp:CanRunMoreJobs"]}
{"id": "C117", "title": "Post-processing takes the most important download and forgets none", "statement": "The next job is one of the download with the highest priority, the first in the queue among equals; a look at the queue comes to an end; after it a download waits only because as many jobs are at work as the strategy allows; if nothing is at work nothing waits.", "quantifier": "For all queues and sequences of events.", "why_tests_cant": "All queues; progress in all executions.", "anchors": ["daemon/postprocess/PrePostProcessor.cpp:PickNextJob", "daemon/postprocess/PrePostProcessor.cpp:CheckPostQueue"]}
{"id": "C118", "title": "The number of post-jobs is right", "statement": "The reported number of post-jobs (PostJobCount) is the number of downloads in post-processing.", "quantifier": "For all sequences of events.", "why_tests_cant": "All orders of completions, ends of jobs and deletions.", "anchors": ["daemon/postprocess/PrePostProcessor.cpp:JobCompleted", "daemon/postprocess/PrePostProcessor.cpp:NzbDownloaded", "daemon/postprocess/PrePostProcessor.cpp:PostQueueDelete"]}
{"id": "C119", "title": "Post-processing scripts are heard", "statement": "The status of each script is what its exit code means; a script that asks for a par-check with its exit code gets it.", "quantifier": "For all exit codes and lists of scripts.", "why_tests_cant": "The request is handled by another thread later on.", "anchors": ["daemon/extension/PostScript.cpp:AnalyseExitCode", "daemon/postprocess/PrePostProcessor.cpp:CheckRequestPar"]}
{"id": "C120", "title": "Deleting a post-job is safe", "statement": "At whatever time the user deletes a job from post-processing, the queue stays intact.", "quantifier": "For all sequences of events.", "why_tests_cant": "Depends on the moment between the end of a job and the next look at the queue.", "anchors": ["daemon/postprocess/PrePostProcessor.cpp:PostQueueDelete", "daemon/postprocess/PrePostProcessor.cpp:CleanupJobs"]}
{"id": "C121", "title": "Unpacking succeeds only if everything was extracted", "statement": "The unpack status is success just if for each kind of archives in the download a run of the unpacker was started, ended with exit code 0, said that all is well and reported no error, split files were joined and the extracted files could be moved. Messages of the unpackers are read within their bounds.", "quantifier": "For all outputs and exit codes of the unpackers, all mixtures of archives.", "why_tests_cant": "All outputs of external programs.", "anchors": ["daemon/postprocess/Unpack.cpp:Run", "daemon/postprocess/Unpack.cpp:AddMessage", "daemon/postprocess/Unpack.cpp:Completed"]}
{"id": "C122", "title": "Passwords are tried in order, and all of them", "statement": "First the password of the download is tried; if it has none, the non-empty lines of the file UnpackPassFile in their order until one works or another error occurs. A wrong password is reported only after all of them were tried.", "quantifier": "For all files of passwords and all behaviours of the unpacker.", "why_tests_cant": "All lists and lengths of passwords.", "anchors": ["daemon/postprocess/Unpack.cpp:UnpackArchives"]}
{"id": "C123", "title": "Joined files are whole", "statement": "A split file is joined just if all its parts are there, and then the result is the parts one after another in the order of their numbers.", "quantifier": "For all directories.", "why_tests_cant": "All sets of parts, sizes and orders of the directory.", "anchors": ["daemon/postprocess/Unpack.cpp:JoinFile"]}
{"id": "C124", "title": "A setting takes effect, the last one counts", "statement": "Of several settings of an option the last one counts, whatever the letter case of the name; the command line comes after the file; a setting changes no other option; a setting with an invalid name changes nothing and the user is told; ConfigFile, AppBin, AppDir and Version cannot be set; no setting crashes the program.", "quantifier": "For all files, command lines and names.", "why_tests_cant": "All orders and letter cases of settings.", "anchors": ["daemon/main/Options.cpp:SetOptionString", "daemon/main/Options.cpp:ValidateOptionName", "daemon/main/Options.cpp:InitOptFile"]}
{"id": "C125", "title": "References to options are replaced", "statement": "In a value each ${Name} of a known option is replaced with its value; directories with defaults like ${MainDir}/dst follow the main directory; loading always ends.", "quantifier": "For all values and tables of options.", "why_tests_cant": "All combinations of references.", "anchors": ["daemon/main/Options.cpp:SetOption"]}
{"id": "C126", "title": "Numbers and words of options mean what they say", "statement": "A number is taken as written, a word of the list with its meaning whatever the letter case; for anything else the default is used and the user is told.", "quantifier": "For all values.", "why_tests_cant": "All texts; memory behind tables may be read without visible effect.", "anchors": ["daemon/main/Options.cpp:ParseIntValue", "daemon/main/Options.cpp:ParseEnumValue"]}
{"id": "C127", "title": "Each line of the configuration file is one setting", "statement": "Lines end with LF or CRLF; empty lines, blank lines and comments are skipped; each other line is taken as it is; the last line need not have a line end; loading ends.", "quantifier": "For all files.", "why_tests_cant": "All files and line ends.", "anchors": ["daemon/main/Options.cpp:LoadConfigFile"]}
{"id": "C128", "title": "Tasks run at the times and days given", "statement": "A list of times h:m and *:m with separators comma or semicolon and a list of days and ranges of days make tasks at just these times on just these days; other texts are refused and the user is told.", "quantifier": "For all lists of times and days.", "why_tests_cant": "All lists.", "anchors": ["daemon/main/Options.cpp:CreateSchedulerTask", "daemon/main/Options.cpp:ParseTime", "daemon/main/Options.cpp:ParseWeekDays"]}
{"id": "C129", "title": "Servers and tasks are those defined", "statement": "Servers are numbered from 1 without gaps; each complete definition makes a server with its values, each incomplete one is reported; a task runs its command with its parameter, or is reported.", "quantifier": "For all tables of options.", "why_tests_cant": "All numbers and combinations of fields.", "anchors": ["daemon/main/Options.cpp:InitServers", "daemon/main/Options.cpp:InitScheduler"]}
{"id": "C130", "title": "Old configuration files keep their meaning", "statement": "Old names and values of options are turned into the new ones whatever the letter case, and nothing else is changed; each script of ScanScript, QueueScript and FeedScript becomes part of Extensions, those of the first two also of the extensions of each category that has some; scripts given before stay in front.", "quantifier": "For all options and tables.", "why_tests_cant": "All names, letter cases and lists of scripts.", "anchors": ["daemon/main/Options.cpp:ConvertOldOption", "daemon/main/Options.cpp:MergeOldScriptOption"]}
{"id": "C131", "title": "The category of a download is found", "statement": "The category is the first one of that name, whatever the letter case; only if there is none, the first one with an alias that matches the name.", "quantifier": "For all lists of categories, masks and names.", "why_tests_cant": "All names and masks.", "anchors": ["daemon/main/Options.cpp:FindCategory"]}
{"id": "C132", "title": "Saving the configuration loses nothing", "statement": "After saving settings from the web interface, loading the file gives just these settings; comments and other lines stay as they were, in their order.", "quantifier": "For all files and settings.", "why_tests_cant": "Round trip for all files and settings.", "anchors": ["daemon/extension/ScriptConfig.cpp:SaveConfig", "daemon/extension/ScriptConfig.cpp:LoadConfig"]}
{"id": "C133", "title": "Restricted users do not see secrets", "statement": "To users with restricted access values of options with user names or passwords, of options of scripts and of the listed options are shown as ***; all others as they are.", "quantifier": "For all names and values.", "why_tests_cant": "All names.", "anchors": ["daemon/main/Options.cpp:Restricted", "daemon/remote/XmlRpc.cpp:LoadConfigXmlCommand"]}
{"id": "C134", "title": "Items stay in the history as long as configured", "statement": "Cleaning the history keeps hidden items and items not older than KeepHistory days; older downloads are hidden for the duplicate check or removed. Only nzb-files of these items are deleted, and only with NzbCleanupDisk.", "quantifier": "For all histories, times and settings.", "why_tests_cant": "All combinations of kinds and ages of items; overflow at large values.", "anchors": ["daemon/queue/HistoryCoordinator.cpp:ServiceWork", "daemon/queue/HistoryCoordinator.cpp:DeleteDiskFiles", "daemon/queue/HistoryCoordinator.cpp:HistoryHide"]}
{"id": "C135", "title": "Editing the history changes exactly the named items", "statement": "Editing leaves items that are not named as they are. No item is lost or doubled unless it is deleted. A setting is changed for all items named. A download is taken back into the queue with its settings if and only if what is needed for it is on the disk. The answer says whether it was done.", "quantifier": "For all histories, actions and lists of ids.", "why_tests_cant": "All actions, kinds of items and lists of ids.", "anchors": ["daemon/queue/HistoryCoordinator.cpp:EditList", "daemon/queue/HistoryCoordinator.cpp:HistoryDelete", "daemon/queue/HistoryCoordinator.cpp:HistoryReturn", "daemon/queue/HistoryCoordinator.cpp:HistoryRedownload"]}
{"id": "C136", "title": "Unsuccessful downloads can be resumed", "statement": "When a download moves to the history, what is known of its files is kept unless the download was successful, was deleted without being parked, or its files are already removed; the statistics of the item are the totals over all its files.", "quantifier": "For all downloads and outcomes.", "why_tests_cant": "All combinations of outcomes and of files.", "anchors": ["daemon/queue/HistoryCoordinator.cpp:AddToHistory"]}
{"id": "C137", "title": "Statistics stay right when a download is taken back", "statement": "After a download was taken back from the history, each of its statistics is the total over the files to be downloaded again and the files that are not.", "quantifier": "For all downloads, files and articles.", "why_tests_cant": "All combinations of states of files and articles.", "anchors": ["daemon/queue/HistoryCoordinator.cpp:HistoryRetry", "daemon/queue/HistoryCoordinator.cpp:ResetArticles"]}
{"id": "C138", "title": "Only what is missing is downloaded again", "statement": "Retrying a download fetches just the files of which something is missing, and of these just the missing articles (failed ones only if asked for; all if the data are gone). Downloading again starts from scratch with the files of the nzb-file.", "quantifier": "For all downloads, files and articles.", "why_tests_cant": "All combinations of states of files, articles and disk.", "anchors": ["daemon/queue/HistoryCoordinator.cpp:HistoryRetry", "daemon/queue/HistoryCoordinator.cpp:ResetArticles", "daemon/queue/HistoryCoordinator.cpp:HistoryRedownload", "daemon/queue/DownloadInfo.cpp:NzbInfo::MoveFileList"]}
{"id": "C139", "title": "A file listed twice is downloaded once", "statement": "If exactly two files of a download have the same name, the smaller one (of equal ones the later one) is dropped and the statistics follow; all other files stay.", "quantifier": "For all lists of files, names and sizes.", "why_tests_cant": "All lists of files.", "anchors": ["daemon/queue/QueueCoordinator.cpp:CheckDupeFileInfos"]}
{"id": "C140", "title": "Rar-volumes are read as written", "statement": "From a rar-volume (formats 3 and 5) the program reads what was stored: number of the volume, whether another one follows, the way volumes are named, and of every file name, size, time, attributes and whether it continues from or in another volume. Files that do not begin with the signature are not taken for volumes.", "quantifier": "For all volumes made of any number of blocks of any kinds, with any fields and any data.", "why_tests_cant": "The contents of volumes are infinitely many; fields of variable length, optional fields and sizes of 64 bits interact.", "anchors": ["daemon/postprocess/RarReader.cpp:RarVolume::Read", "daemon/postprocess/RarReader.cpp:RarVolume::ReadRar3Volume", "daemon/postprocess/RarReader.cpp:RarVolume::ReadRar5Volume", "daemon/postprocess/RarReader.cpp:RarVolume::DetectRarVersion"]}
{"id": "C141", "title": "Reading a rar-volume ends", "statement": "Reading any file as rar-volume ends, without undefined operations, also if the file is damaged or malicious.", "quantifier": "For all contents of files.", "why_tests_cant": "Non-termination cannot be observed by tests; the contents of files are infinitely many.", "anchors": ["daemon/postprocess/RarReader.cpp:RarVolume::ReadRar3Volume", "daemon/postprocess/RarReader.cpp:RarVolume::ReadRar5Volume", "daemon/postprocess/RarReader.cpp:RarVolume::Seek", "daemon/postprocess/RarReader.cpp:RarVolume::ReadV"]}
{"id": "C142", "title": "Renaming of rar-volumes loses nothing", "statement": "Renaming rar-volumes ends and never overwrites or loses a file: afterwards the directory holds the same contents, under paths within the same directory; files that are no volumes are not touched. This holds also for hostile archives and if renamings fail.", "quantifier": "For all contents of directories, all volumes found there and all failures of renamings.", "why_tests_cant": "The combinations of names, contents of archives and failures are unbounded; overwriting a file is not visible in the program's result.", "anchors": ["daemon/postprocess/RarRenamer.cpp:RenameFiles", "daemon/postprocess/RarRenamer.cpp:GenNewVolumeFilename", "daemon/postprocess/RarRenamer.cpp:GenOldExtension", "daemon/postprocess/RarRenamer.cpp:Execute"]}
{"id": "C143", "title": "Sets of rar-volumes are found and named", "statement": "Volumes are put together into sets: beginning with the first volume, with consecutive numbers and continued files, up to a last volume; every complete and unambiguous set is found. Sets with proper names are left alone; the volumes of others are named after the biggest file in the archive, with the first free name, and each volume gets the extension of its number.", "quantifier": "For all lists of volumes, names and contents of directories.", "why_tests_cant": "Sets depend on relations between all files of a directory.", "anchors": ["daemon/postprocess/RarRenamer.cpp:MakeSets", "daemon/postprocess/RarRenamer.cpp:SameArchiveName", "daemon/postprocess/RarRenamer.cpp:IsSetProperlyNamed", "daemon/postprocess/RarRenamer.cpp:FindMainFile", "daemon/postprocess/RarRenamer.cpp:RenameFiles"]}
{"id": "C144", "title": "The results of checks and unpacks are remembered", "statement": "A download counts as good after a check only if its files were complete or have been repaired, as repairable only if they can be, as failed otherwise. If unpacking fails and a check is asked for, the archives are not unpacked a second time unless something was repaired (or passwords remain to be tried); the failure is reported.", "quantifier": "For all executions of the post-processing queue.", "why_tests_cant": "Between the failed unpack and the second one there are events of other threads in all orders.", "anchors": ["daemon/postprocess/Repair.cpp:ParCheckCompleted", "daemon/postprocess/Unpack.cpp:Run", "daemon/postprocess/Unpack.cpp:RequestParCheck"]}
{"id": "C145", "title": "Renaming by par2-files loses nothing", "statement": "Renaming the files of a download by the descriptions in its par2-files ends and loses no file: afterwards the same contents are there, no file was replaced by another one, files outside the directories of the download are untouched, and renamings stay within one directory. This holds whatever par2-files contain and whichever renamings fail.", "quantifier": "For all contents of directories and par2-files and all failures of renamings.", "why_tests_cant": "A file replaced by another one does not show in the result; names and contents are unbounded.", "anchors": ["daemon/postprocess/ParRenamer.cpp:Execute", "daemon/postprocess/ParRenamer.cpp:CheckRegularFile", "daemon/postprocess/ParRenamer.cpp:RenameFile", "daemon/postprocess/ParRenamer.cpp:RenameBadParFiles", "daemon/postprocess/ParRenamer.cpp:CheckParFile"]}
{"id": "C146", "title": "Files get the names described in par2-files", "statement": "A file whose first 16 KB have the hash described gets the name described, unless the name is taken or the file is the first part of a split file; every other file keeps its name. Every name described that was free is given to some matching file.", "quantifier": "For all sets of files, descriptions and hashes.", "why_tests_cant": "The relation between all files of a directory and all descriptions matters.", "anchors": ["daemon/postprocess/ParRenamer.cpp:CheckRegularFile", "daemon/postprocess/ParRenamer.cpp:LoadParFile", "daemon/postprocess/ParRenamer.cpp:IsSplittedFragment"]}
{"id": "C147", "title": "Missing files are noticed when renaming", "statement": "After renaming, files are reported missing exactly if a file described (and not to be ignored) has no counterpart with its hash in the directory.", "quantifier": "For all sets of files and descriptions.", "why_tests_cant": "Equivalence over all sets of files.", "anchors": ["daemon/postprocess/ParRenamer.cpp:CheckMissing", "daemon/postprocess/ParRenamer.cpp:CheckFiles"]}
{"id": "C148", "title": "Obfuscated par2-files get names that belong together", "statement": "A file is taken for a par2-file exactly if it begins with a par2-packet. If the par2-files of a directory lack the extension, or those of a set differ in their base names, each of them gets a new free name made of the identifier of its set and the next number; otherwise they are left alone.", "quantifier": "For all contents of directories.", "why_tests_cant": "All names and contents of files; numbers depend on the names in use.", "anchors": ["daemon/postprocess/ParRenamer.cpp:CheckParFile", "daemon/postprocess/ParRenamer.cpp:NeedRenameParFiles", "daemon/postprocess/ParRenamer.cpp:RenameParFile", "daemon/postprocess/ParParser.cpp:SameParCollection"]}
{"id": "C149", "title": "The first article tells hash and kind of a file", "statement": "When the first article of a file has been downloaded, the hash remembered for the file is that of its first 16 KB, and the file is taken for a par2-file of a set exactly if it begins with a par2-packet of that set; this does not depend on how the article arrives in pieces or on failed attempts before.", "quantifier": "For all articles, all ways to arrive in pieces and all attempts before.", "why_tests_cant": "The pieces depend on the network; all cuts of all articles.", "anchors": ["daemon/queue/DirectRenamer.cpp:RenameContentAnalyzer::Append", "daemon/queue/DirectRenamer.cpp:RenameContentAnalyzer::Reset", "daemon/queue/DirectRenamer.cpp:RenameContentAnalyzer::Finish", "daemon/nntp/ArticleDownloader.cpp"]}
{"id": "C150", "title": "Renaming during the download gives the names described and loses nothing", "statement": "Files in progress and completed files get the names described by the par2-files for their hashes; par2-files whose names do not belong together get names with their set; different files get different names; the data of each completed file are found under its new name, and no other file is changed or lost.", "quantifier": "For all downloads, descriptions and contents of the directory; whatever renaming the system refuses.", "why_tests_cant": "Relation between all files of the download, all descriptions and the disk.", "anchors": ["daemon/queue/DirectRenamer.cpp:RenameFiles", "daemon/queue/DirectRenamer.cpp:BuildNewRegularName", "daemon/queue/DirectRenamer.cpp:BuildNewParName", "daemon/queue/DirectRenamer.cpp:NeedRenamePars", "daemon/queue/DirectRenamer.cpp:RenameCompletedFile"]}
{"id": "C151", "title": "The smallest par2-file of each set is downloaded first, then files are renamed once", "statement": "When the first articles of all files are known, exactly one par2-file of each set without a completed one, of the smallest size, is resumed and gets priority. When these are completed the files are renamed, once.", "quantifier": "For all downloads and all orders of events.", "why_tests_cant": "All interleavings of articles and completed files.", "anchors": ["daemon/queue/DirectRenamer.cpp:CheckState", "daemon/queue/DirectRenamer.cpp:UnpausePars", "daemon/queue/DirectRenamer.cpp:FileDownloaded", "daemon/queue/QueueCoordinator.cpp:DeleteFileInfo"]}
{"id": "C152", "title": "The sums for par2-files remain right when the kind of a file becomes known", "statement": "When the first article shows that a file is a par2-file or is none, the sums of sizes and of successful, failed and missing articles of par2-files and their number are changed by exactly those of the file; a file paused as a par2-file that is none is resumed; other files are not changed but for par2-files to be downloaded first.", "quantifier": "For all downloads, files and articles.", "why_tests_cant": "Sums over all files in all states.", "anchors": ["daemon/queue/DirectRenamer.cpp:ArticleDownloaded"]}
{"id": "C153", "title": "Cleaning up deletes exactly the files configured", "statement": "After a successful download exactly the files whose names match ExtCleanupDisk are deleted, in the directory of the download and below; nothing else is touched; the status tells whether all could be deleted.", "quantifier": "For all trees of files, all patterns and whatever the system refuses to delete.", "why_tests_cant": "All shapes of directories and combinations of failures.", "anchors": ["daemon/postprocess/Cleanup.cpp:CleanupController::Cleanup", "daemon/postprocess/Cleanup.cpp:CleanupController::Run", "daemon/util/Util.cpp:MatchFileExt"]}
{"id": "C154", "title": "Moving to the final directory loses nothing", "statement": "Moving files from the intermediate to the final directory never overwrites a file there and never loses one: each file is found with its content in the final directory or, if it could not be moved and the move is reported as failed, in the intermediate directory.", "quantifier": "For all contents of both directories, both kinds of devices, and whatever the system refuses.", "why_tests_cant": "Failures at every file and every state of the final directory; loss of data is not visible in the result.", "anchors": ["daemon/postprocess/Cleanup.cpp:MoveController::MoveFiles", "daemon/postprocess/Cleanup.cpp:MoveController::Run", "daemon/util/FileSystem.cpp:MoveFile", "daemon/util/FileSystem.cpp:CopyFile", "daemon/util/FileSystem.cpp:MakeUniqueFilename"]}
{"id": "C155", "title": "Deleting a directory deletes exactly its contents", "statement": "Deleting the directory of a download deletes everything inside, but for what the system refuses, nothing outside, and the result tells whether something is left.", "quantifier": "For all trees of files and whatever the system refuses to delete.", "why_tests_cant": "All shapes of directories and combinations of failures.", "anchors": ["daemon/util/FileSystem.cpp:DeleteDirectoryWithContent", "daemon/util/FileSystem.cpp:RemoveDirectory"]}
{"id": "C156", "title": "Queue-scripts are started for exactly the events they are configured for", "statement": "An event of a download makes exactly those queue-scripts wait that are assigned to the download, globally or by its category and that are interested in the event, in the order of the scripts; an event for a downloaded file that comes too soon after the last one is ignored; the end of the download removes older waiting events of it.", "quantifier": "For all scripts, configurations, downloads, events, times and states of the queue.", "why_tests_cant": "Depends on time, the order of events and all combinations of configuration.", "anchors": ["daemon/extension/QueueScript.cpp:QueueScriptCoordinator::EnqueueScript", "daemon/extension/QueueScript.cpp:QueueScriptCoordinator::UsableScript", "daemon/extension/QueueScript.cpp:QueueScriptCoordinator::PrepareQueueScript"]}
{"id": "C157", "title": "Queue-scripts run one at a time, none is lost, the most urgent first", "statement": "At most one queue-script runs at any time; when none runs none waits; when a script ends, waiting items of downloads that are gone are dropped and the waiting item with the highest priority is started; each waiting item of a remaining download is started at last.", "quantifier": "For all sequences of events and ends of scripts.", "why_tests_cant": "The order depends on the history of the whole queue; starvation shows only over unbounded time.", "anchors": ["daemon/extension/QueueScript.cpp:QueueScriptCoordinator::CheckQueue", "daemon/extension/QueueScript.cpp:QueueScriptCoordinator::EnqueueScript", "daemon/extension/QueueScript.cpp:QueueScriptCoordinator::StartScript"]}
{"id": "C158", "title": "Commands printed by post-processing scripts take effect, and nothing else does", "statement": "The final directory, the directory, the parameters and the mark of a download change exactly as the lines printed by a post-processing script ask for; other lines become messages of the kind given by their first word; the scripts executed are those assigned to the download, in the order of all scripts.", "quantifier": "For all names of downloads and scripts and all output.", "why_tests_cant": "The output of scripts and the names of downloads are arbitrary; messages of the program itself go through the same function.", "anchors": ["daemon/extension/PostScript.cpp:PostScriptController::AddMessage", "daemon/util/Script.cpp:ScriptController::ProcessOutput", "daemon/util/Script.cpp:ScriptController::PrintMessage", "daemon/extension/NzbScript.cpp:NzbScriptController::ExecuteScriptList"]}
{"id": "C159", "title": "Scan-scripts change what they ask for; new downloads get the parameters of their category", "statement": "Name, category, parameters, priority, position, pause state and duplicate settings of a new download change exactly as the lines printed by scan-scripts ask for. The parameters of a new download are those given, otherwise those of its category, otherwise the global ones; a category given by a scan-script brings its own.", "quantifier": "For all output of scripts, categories, scripts and parameters.", "why_tests_cant": "All combinations of categories, parameters and commands.", "anchors": ["daemon/extension/ScanScript.cpp:ScanScriptController::AddMessage", "daemon/extension/ScanScript.cpp:ScanScriptController::ExecuteScript", "daemon/queue/Scanner.cpp:Scanner::InitPPParameters"]}
{"id": "C160", "title": "Scripts are told exactly their options and parameters", "statement": "The environment of a script consists of the inherited variables that are not of the program's own kind, the variables about the download, and all parameters and options under their names and under the names in capitals with special characters replaced, the script's own ones without the name of the script. Each variable has one value.", "quantifier": "For all environments, parameters, options and names of scripts.", "why_tests_cant": "All combinations of names; collisions show for particular names only.", "anchors": ["daemon/util/Script.cpp:ScriptController::SetEnvVarSpecial", "daemon/util/Script.cpp:ScriptController::PrepareEnvOptions", "daemon/util/Script.cpp:EnvironmentStrings::InitFromCurrentProcess", "daemon/extension/NzbScript.cpp:NzbScriptController::PrepareEnvScript"]}
{"id": "C161", "title": "The program configured for the extension executes the script", "statement": "If the option ShellOverride has an entry for the extension of a script, whatever the letter case, the program of the first such entry is executed with the script as its argument; otherwise the script itself.", "quantifier": "For all values of the option and paths of scripts.", "why_tests_cant": "All texts for option and path.", "anchors": ["daemon/util/Script.cpp:ScriptController::PrepareArgs"]}
{"id": "C162", "title": "The password is sent to a news server only when asked for; a connection is good only when the server let the user in", "statement": "Whatever the server answers, the password is sent only directly after an answer asking for it and the name only after the greeting or when authorization is asked for; a newly made connection is told to be good only if the server has greeted and accepted name and password; the answer given for a request is the server's answer to it, and the number of commands sent for a request is bounded.", "quantifier": "For all servers, networks, names, passwords and sequences of operations.", "why_tests_cant": "The server is arbitrary and may answer anything at any time.", "anchors": ["daemon/nntp/NntpConnection.cpp:NntpConnection::Connect", "daemon/nntp/NntpConnection.cpp:NntpConnection::AuthInfoUser", "daemon/nntp/NntpConnection.cpp:NntpConnection::AuthInfoPass", "daemon/nntp/NntpConnection.cpp:NntpConnection::Request"]}
{"id": "C163", "title": "A group told to be joined is the group the server has selected on this connection", "statement": "If joining a group gives a positive answer then the group is the one the server has selected last on the current connection, also when nothing had to be sent because it was joined before.", "quantifier": "For all servers, networks and sequences of connecting, joining, fetching and disconnecting.", "why_tests_cant": "Depends on the whole history of the connection, including errors and reconnects.", "anchors": ["daemon/nntp/NntpConnection.cpp:NntpConnection::JoinGroup", "daemon/nntp/NntpConnection.cpp:NntpConnection::Disconnect", "daemon/nntp/ArticleDownloader.cpp:ArticleDownloader::Download"]}
{"id": "C164", "title": "Each request to a news server is one command", "statement": "Only commands for what was asked for are sent to a news server, each as one line; names of groups and identifiers of articles from nzb-files can't bring other commands.", "quantifier": "For all names of groups, identifiers, user names, passwords, servers and sequences of operations.", "why_tests_cant": "Names come from nzb-files of others and can contain any bytes.", "anchors": ["daemon/nntp/NntpConnection.cpp:NntpConnection::Request", "daemon/nntp/NntpConnection.cpp:NntpConnection::JoinGroup", "daemon/nntp/ArticleDownloader.cpp:ArticleDownloader::Download"]}
{"id": "C165", "title": "The remote-control port of the daemon does nothing for a request without the right user and password", "statement": "Whatever bytes a client of the binary protocol sends, a command is executed or answered only if the request begins with the signature and carries the configured user (if one is configured) and the configured password, a known type and the size belonging to it; a request with another user or password is not answered and nothing is done.", "quantifier": "For all users, passwords and bytes sent.", "why_tests_cant": "The bytes come from the network and are arbitrary; limits of the fields show for particular passwords only.", "anchors": ["daemon/remote/BinRpc.cpp:BinRpcProcessor::Execute", "daemon/remote/BinRpc.cpp:BinRpcProcessor::Dispatch", "daemon/remote/RemoteClient.cpp:RemoteClient::InitMessageBase"]}
{"id": "C166", "title": "Commands given to the command-line client arrive at the daemon unchanged", "statement": "For each command of the command-line client - adding a file or URL, pausing, speed limit, editing by numbers or names with a text, reading lists, writing to the log, scanning - the daemon performs exactly that command with exactly these values, whatever is in memory the client has not set; no request can make the daemon read outside of its memory.", "quantifier": "For all commands, values, users and passwords and for all contents of unset memory.", "why_tests_cant": "Unset memory, alignment and lengths interact; the request is a binary layout shared by two programs.", "anchors": ["daemon/remote/RemoteClient.cpp:RemoteClient::RequestServerEditQueue", "daemon/remote/RemoteClient.cpp:RemoteClient::RequestServerDownload", "daemon/remote/BinRpc.cpp:EditQueueBinCommand::Execute", "daemon/remote/BinRpc.cpp:DownloadBinCommand::Execute", "daemon/remote/BinRpc.cpp:WriteLogBinCommand::Execute"]}
{"id": "C167", "title": "Lists sent to the command-line client are read as they were written", "statement": "The queue with its parameters and files, the log, the history and the list of post-processing are written by the daemon into exactly as many bytes as were reserved and announced, and the client reads from them the same entries, each parameter and file at its download.", "quantifier": "For all queues, histories and logs of less than four gigabytes.", "why_tests_cant": "Sizes are computed in one order and data is written in another; alignment of every entry depends on all lengths before it.", "anchors": ["daemon/remote/BinRpc.cpp:ListBinCommand::Execute", "daemon/remote/BinRpc.cpp:HistoryBinCommand::Execute", "daemon/remote/BinRpc.cpp:PostQueueBinCommand::Execute", "daemon/remote/RemoteClient.cpp:RemoteClient::BuildFileList"]}
{"id": "C168", "title": "The command-line client gets the messages of the log and the states it asks for", "statement": "Asking for the last messages gives that many of the newest messages or all; asking for messages from an identifier on gives exactly the messages with this or a later identifier; the number announced is the number sent; the history shows the scripts as successful or failed as they were.", "quantifier": "For all logs, numbers and identifiers.", "why_tests_cant": "All combinations of the length of the log and the numbers asked for, including the limits of the types.", "anchors": ["daemon/remote/BinRpc.cpp:LogBinCommand::Execute", "daemon/remote/RemoteClient.cpp:RemoteClient::RequestServerLog", "daemon/remote/RemoteClient.cpp:RemoteClient::RequestHistory"]}
{"id": "C169", "title": "Only duplicates with the same main file are used for repair", "statement": "Before files of older downloads are used to repair a download, the largest file of each (in its archives, or of its directory) is determined; if the own largest file has about the expected size, exactly those duplicates are used whose largest file has the same size and the same kind of compression.", "quantifier": "For all contents of directories and archives, sizes and lists of duplicates.", "why_tests_cant": "The result depends on the order of directory entries and archive listings and on sizes of volumes relative to files.", "anchors": ["daemon/postprocess/DupeMatcher.cpp:DupeMatcher::FindLargestFile", "daemon/postprocess/DupeMatcher.cpp:RarLister::AddMessage", "daemon/postprocess/DupeMatcher.cpp:DupeMatcher::SizeDiffOK", "daemon/postprocess/Repair.cpp:RepairController::PostParChecker::RequestDupeSources"]}
{"id": "C170", "title": "Direct unpack: success means unpacked, and volumes are waited for", "statement": "If direct unpack of a download is reported as successful then unrar was run for every first volume that was in the directory or was reported before the end of the download, each run ended with code 0 after 'All OK', the download was completed, and it was neither deleted nor stopped, nor had it failed articles. Only existing first volumes are given to unrar. Unrar's questions for volumes are answered once each, in their order, and only when the volume (but for the case of letters) is in the directory; while unrar waits the report of the volume wakes it; after the end of the download unrar is not left waiting. After the download is deleted, the program is shut down or a file with failed articles is reported no further archive is begun.", "quantifier": "For every interleaving of the unpack thread, unrar's output and exit, reports of files, completion, deletion and shutdown.", "why_tests_cant": "Outcomes depend on the interleaving of three parties; tests exercise a few schedules only.", "anchors": ["daemon/postprocess/DirectUnpack.cpp:DirectUnpack::Run", "daemon/postprocess/DirectUnpack.cpp:DirectUnpack::WaitNextVolume", "daemon/postprocess/DirectUnpack.cpp:DirectUnpack::FileDownloaded", "daemon/postprocess/DirectUnpack.cpp:DirectUnpack::NzbDownloaded", "daemon/postprocess/DirectUnpack.cpp:DirectUnpack::Stop"]}
{"id": "C171", "title": "Direct unpack: names of first volumes and unrar's output", "statement": "Direct unpack starts with files ending in .rar (any case) except volumes name.partN.rar with N other than 1; it is considered for .rar files and volumes .r00 to .z99. A line printed by unrar is read as it is; the question for the next volume, printed without line end, is recognised as soon as it is complete, and the volume asked for is exactly the name in it.", "quantifier": "For all names and all texts printed before and after.", "why_tests_cant": "The reader works byte by byte on arbitrary output; special texts inside names and progress output with backspaces are not enumerable.", "anchors": ["daemon/postprocess/DirectUnpack.cpp:DirectUnpack::IsMainArchive", "daemon/postprocess/DirectUnpack.cpp:DirectUnpack::IsArchiveFilename", "daemon/postprocess/DirectUnpack.cpp:DirectUnpack::ReadLine", "daemon/postprocess/DirectUnpack.cpp:DirectUnpack::AddMessage"]}
{"id": "C172", "title": "Remote procedures receive the parameters as written", "statement": "The parameters of append, editqueue, rate, scheduleresume, writelog and editserver, written in JSON, XML or an address, reach the operation exactly as their meaning: texts decoded (JSON escapes, XML entities), numbers and booleans with their value, the action by its name in any case, the optional offset of editqueue, all ids, all post-processing parameters, all servers. Unknown names of actions, message kinds and duplicate modes, negative numbers and missing parameters are refused.", "quantifier": "For all well-formed requests (any blanks, brackets, texts, numbers of 32 bits, lists of any length) in all three forms.", "why_tests_cant": "The parameters are found by scanning the text for the next value; spacing, nesting, escapes and the contents of other values all interact, and the three forms share code with different rules.", "anchors": ["daemon/remote/XmlRpc.cpp:XmlCommand::NextParamAsInt", "daemon/remote/XmlRpc.cpp:XmlCommand::NextParamAsBool", "daemon/remote/XmlRpc.cpp:XmlCommand::NextParamAsStr", "daemon/remote/XmlRpc.cpp:XmlCommand::XmlNextValue", "daemon/remote/XmlRpc.cpp:DownloadXmlCommand::Execute", "daemon/remote/XmlRpc.cpp:EditQueueXmlCommand::Execute", "daemon/remote/XmlRpc.cpp:EditServerXmlCommand::Execute"]}
{"id": "C173", "title": "Reading parameters of remote procedures stays inside the request and ends", "statement": "However a request with parameters is malformed, reading any sequence of parameters from it never reads memory behind the request and every of these procedures ends.", "quantifier": "For all byte sequences as requests, all sequences of parameter kinds, all three forms.", "why_tests_cant": "Malformed requests are unbounded; reading behind the buffer is often invisible in a test run.", "anchors": ["daemon/remote/XmlRpc.cpp:XmlCommand::NextParamAsInt", "daemon/remote/XmlRpc.cpp:XmlCommand::NextParamAsBool", "daemon/remote/XmlRpc.cpp:XmlCommand::NextParamAsStr", "daemon/remote/XmlRpc.cpp:XmlCommand::PrepareParams"]}
{"id": "C174", "title": "Items of an RSS feed have the values the feed gives", "statement": "Every item element of an RSS feed gives one feed item, in order, with the title, category, description, time, address, size, ids, season, episode and indexer attributes its own elements say, whatever their order: the enclosure's address and length win over link and size attribute, the last of several wins for the others. Nothing from outside of the item gets into it.", "quantifier": "For all feeds: any number of items, any order and repetition of elements, any texts, any way the XML parser splits texts, any unknown elements in between.", "why_tests_cant": "The reader is a state machine over the parser's calls; orders, repetitions and splits of texts are unbounded.", "anchors": ["daemon/feed/FeedFile.cpp:FeedFile::Parse_StartElement", "daemon/feed/FeedFile.cpp:FeedFile::Parse_EndElement", "daemon/feed/FeedFile.cpp:FeedFile::SAX_characters", "daemon/feed/FeedInfo.cpp:FeedItemInfo::ParsePrefixedInt"]}
{"id": "C175", "title": "File names from titles and descriptions of feed items", "statement": "The file name of a feed item is the text in quotes of its title, if it has a dot not at its beginning, without a final .par2 in any case; otherwise it is the title. In descriptions each tag is replaced by as many blanks; nothing else is changed.", "quantifier": "For all titles and all descriptions.", "why_tests_cant": "Positions of quotes, dots and brackets are arbitrary; reading behind the text is invisible in tests.", "anchors": ["daemon/feed/FeedFile.cpp:FeedFile::ParseSubject", "daemon/util/Util.cpp:WebUtil::XmlStripTags"]}
{"id": "C176", "title": "Command line: lists of ids", "statement": "A list of ids and ranges of ids, upwards or downwards, separated by commas or blanks and in one or several words, means exactly these ids in the order written; a list with a piece that is no id or range is refused as a whole.", "quantifier": "For all lists of ids and ranges and all ways to write them.", "why_tests_cant": "Lists, ranges and separators are unbounded; a wrong id deletes another download.", "anchors": ["daemon/main/CommandLineParser.cpp:CommandLineParser::ParseFileIdList"]}
{"id": "C177", "title": "Command line: adding files", "statement": "nzbget -A with any settings (top, paused, category, name, priority, duplicate key, score and mode) in any order and letter case asks to add exactly the named file with exactly these settings; names are made absolute, addresses are left as they are; every file named is added or the command is refused, wherever the other switches stand.", "quantifier": "For all settings, all their orders, all file names and all preceding switches.", "why_tests_cant": "The words are arbitrary; which word is the file depends on the order of all words.", "anchors": ["daemon/main/CommandLineParser.cpp:CommandLineParser::InitCommandLine", "daemon/main/CommandLineParser.cpp:CommandLineParser::InitFileArg"]}
{"id": "C178", "title": "Command line: editing the queue, post-jobs and the history", "statement": "Every command of the help text for -E, in any letter case, asks for its own action with its value and for exactly the items given by ids, names or regular expressions. Unknown commands, commands with a missing value, lists with what is no id and commands for the wrong scope are refused.", "quantifier": "For all commands, scopes, values, items and preceding switches.", "why_tests_cant": "The combinations of scopes, commands, values and positions are unbounded; the effect of a wrong one is the deletion of something else.", "anchors": ["daemon/main/CommandLineParser.cpp:CommandLineParser::InitCommandLine", "daemon/main/CommandLineParser.cpp:CommandLineParser::ParseFileNameList"]}
{"id": "C179", "title": "Command line: pausing, listing, scanning and the other commands", "statement": "Every command of the help text without items (-P, -U, -L, -S with or without their word, -Q, -O, -V), in its short or long form and with its word in any letter case, asks for exactly what the help text says; any other word behind it is refused; together with the switch for the server the pause applies to the server that is started.", "quantifier": "For all commands, all preceding configuration files and options, and all other words.", "why_tests_cant": "Words are arbitrary; taking a word for another command stops the wrong thing.", "anchors": ["daemon/main/CommandLineParser.cpp:CommandLineParser::InitCommandLine", "daemon/main/CommandLineParser.cpp:CommandLineParser::InitFileArg"]}
{"id": "C180", "title": "Services are run when they are due", "statement": "The thread of services runs exactly the services that are due, never waits past the moment the next one falls due nor longer than the interval of any of them, and no call to wake it up is lost, whenever it is made, also when the clock is changed.", "quantifier": "For all services, intervals and interleavings of the thread with changes, calls and the clock.", "why_tests_cant": "Whether a call is lost depends on the moment at which it is made.", "anchors": ["daemon/util/Service.cpp:ServiceCoordinator::Run", "daemon/util/Service.cpp:ServiceCoordinator::WakeUp"]}
{"id": "C181", "title": "Disk space and required directories", "statement": "While downloading, a check of the disk pauses the download if and only if less than DiskSpace megabytes are known to be free in the destination or intermediate directory, and never resumes it. Neither download nor post-processing begins before all directories in RequiredDir have been there at one check, and both begin at that check.", "quantifier": "For all amounts of free space, all lists of directories and all interleavings of checks and post-processing.", "why_tests_cant": "Directories appear and vanish at any time, the list is arbitrary text.", "anchors": ["daemon/main/DiskService.cpp:DiskService::CheckDiskSpace", "daemon/main/DiskService.cpp:DiskService::CheckRequiredDir", "daemon/postprocess/PrePostProcessor.cpp:PrePostProcessor::UpdatePauseState"]}
