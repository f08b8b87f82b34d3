# Formal model of nzbget in Rocq (Coq 8.16.1)

Source: `/repo` (nzbget/nzbget at the pinned commit), read as text only. The
model is written by hand in Gallina; nothing is extracted from or linked with
the C++ code.

## Layout

* `rocq/theories/*Model.v` : executable Gallina transcription of the C++ code.
  Every definition carries a comment with the file and lines it transcribes and
  the simplifications made. These files contain no proofs of properties.
* `rocq/theories/*Spec.v` : small, independent statement of what the code
  should do. The statements of the theorems use these words and the entry
  points of the model.
* `rocq/theories/*Proofs*.v` : lemmas.
* `rocq/theories/Properties_*.v` : the final theorems, examples that their
  hypotheses can be met, and `Print Assumptions` for each theorem.
* `properties.jsonl` : the properties in English. `MANIFEST.json` maps them to
  theorem names.
* `seeded/LOG.jsonl` : wrong programs tried against the theorems.

## Conventions

* A byte is a `Z` (0..255); that a value is a byte is an explicit hypothesis
  where it is needed. A C string is the list of its bytes before the NUL.
* Machine integers are `Z`; wrap-around and conversions are written explicitly
  (`mod 2^32`) wherever the C++ code can wrap and the property depends on it.
  Where a model file says so in its head, `int`/`int64` are unbounded.
* Undefined behaviour (reads past the terminator, out-of-range indexing, null
  pointers, freed memory, division by zero) is a distinct outcome of the model
  (`None`), so "never reads past the end" is a provable or refutable statement.
* Loops are structural recursion or fuel with an explicit failure value, and
  the theorems show that the failure value is not reached.
* `std::sort` and `std::stable_sort` are an insertion sort; the theorems about
  `std::sort` do not depend on the order among equal elements.
* Interleaving: what the code does under one mutex is one step; the theorems
  about shared state quantify over all sequences of such steps.
* When a property is false of the faithful model, the theorem is named
  `..._refuted` and gives a witness; what does hold is proved next to it under
  an explicit side condition with the suffix `_partial`. A property with a
  refuted part has the status "partial".

## Trusted base

1. The Coq 8.16.1 kernel, including `vm_compute`.
2. The assumptions listed by `Print Assumptions` for each theorem: see the
   table at the end. All theorems are closed: no axiom is used.
3. The faithfulness of the hand-written model to the C++ source. The comments
   in the model files say exactly which lines are covered and what is left out.
4. The English of `properties.jsonl` and the definitions of the `*Spec.v`
   files, as a rendering of what users expect.

Not modelled anywhere: the operating system (except the file operations of the
state files, the article writer and the name search), threads as such, timing,
TLS, failing memory allocation, floating point (left open as parameters), the
Windows-only branches, the SIMD variants of the yEnc/CRC code (only the scalar
and slicing code), the terminal and web front ends, the unpackers and the par2
library apart from its arithmetic and equation solver.

Parts of the C library that are modelled where they are used: `atoi`, `atoll`,
`strtol`, `strtoul`, `printf` of numbers, `sscanf` with the conversions used,
`strstr`, `strchr`, `strcasecmp`, `fgets`, `gmtime_r`.

## Model files

The text is the head comment of each file; every definition in it cites the lines it transcribes.

### ArgModel.v

Model of the command line: daemon/main/CommandLineParser.cpp.
`getopt_long` is the one of the GNU C library: switches and other words may stand in any order, it moves the other words behind the switches in its own copy of the
words. Not modelled: several switches in one word ("-sP"), values joined to their switch ("-oX=1", "--edit=G"), shortened long names, the switches "R" and "B".

### Base.v

Common definitions: bytes, C strings, arithmetic set-up.

### BinModel.v

Model of the binary remote protocol: daemon/remote/BinRpc.cpp (the server), daemon/remote/RemoteClient.cpp (the client, "nzbget -L" and
the like), daemon/remote/MessageBase.h (the layout: 32-bit words in network byte order and texts, without gaps), the choice of the protocol in
daemon/remote/RemoteServer.cpp and Recv of daemon/connect/Connection.cpp. A connection is the list of all bytes sent by the client. Memory is
modelled as the bytes from a pointer to the end of the object; reading behind it is a distinct outcome. User and password have no
NUL inside. Blocks of memory are aligned at four bytes. Not modelled: what the commands do, regular expressions, state of the server in
the list, failing allocations of sizes below 2^31.

### BufModel.v

Model of the text buffers: daemon/util/NString.h and daemon/util/NString.cpp.
Memory is modelled byte by byte: a block is the list of its bytes, an indeterminate
byte is `junk`, and `None` is an access outside a block or a test of an indeterminate byte.
A source text is the memory which starts at the pointer. Formatted texts are taken as
the text `vsnprintf` makes of its arguments.
Not modelled: sources inside the buffer being changed, failing allocations, failing
conversions of `vsnprintf`, lengths above 2^30 (where `int` arithmetic overflows).

### CalendarModel.v

Model of the calendar code of daemon/util/Util.cpp:582-645 (`Util::Timegm`).
C `int` division truncates towards zero: `Z.quot`, `Z.rem`. Overflow of `int`
is not modelled.

### CleanModel.v

Model of cleaning up and of moving files to their final directory: daemon/postprocess/Cleanup.cpp, with the functions of
daemon/util/FileSystem.cpp it uses (POSIX). A directory is a tree; a link shows what it leads to, which lies outside
and is not shared with anything else. `can`: whether the system lets an entry be renamed, copied or deleted.
Directories are read once. Names on the disk are shorter than 1023 bytes and paths shorter than 1024. Not modelled: messages other
than the choice between success and nothing to do, special files, threads.

### CodecModel.v

Model of the text encoders and decoders of daemon/util/Util.cpp
(`WebUtil`). Strings are the bytes before the NUL, bytes are unsigned.

### ConnModel.v

Buffered reading from and writing to a socket, daemon/connect/Connection.cpp.
The peer's bytes are a stream that ends when the peer closes the connection; the kernel hands them
over in pieces whose sizes are free (a schedule).  Left out: TLS, time outs, cancellation and
errors of recv (they end the stream in the same way as closing).

### CrcModel.v

Model of the CRC-32 routines.

### DRenModel.v

Model of the renaming of files while they are downloaded: daemon/queue/DirectRenamer.cpp, with the calls from
daemon/queue/QueueCoordinator.cpp. Disk and refused renamings as in RarSetModel.v and ParRenModel.v. Files in progress and
completed files have one record; `f_done` tells them apart. What the par2-library reads is given as the list of the files
described (name made valid, printed hash), in the order of loading. The hash is a function `md5`. The order std::sort
makes is a function `sort`. Names and paths are shorter than 1024 bytes and have no terminator inside. Not modelled:
messages, saving of the queue, stopping, the thread of the loader (what it does under the lock is one step), and what
the coordinator does after the renaming.

### DecoderModel.v

Model of daemon/nntp/Decoder.cpp: the article decoder.

### DiskModel.v

Saving and loading of queue entries.

    daemon/queue/DiskState.cpp
    461-491   SaveQueue, LoadQueue
    493-535   SaveProgress, LoadProgress
    537-630   SaveNzbInfo
    632-980   LoadNzbInfo (the branches of the current format version 62)
    982-1018  SaveServerStats, LoadServerStats
    1365-1403 SaveDupInfo, LoadDupInfo
    1405-1473 SaveHistory, LoadHistory

Files written by the current version only: the branches for older format
versions are not modelled.  Enumerations are their integer values.  Text
attributes are C strings.  A failing load leaves a partly changed object
behind in C++; every caller then discards the whole load, so `None` stands
for it.  The name derived from the url or file name when the saved name is
empty (DownloadInfo.cpp 173-194) is not modelled: an empty saved name keeps
the name of the object loaded into.

### DmModel.v

Model of the comparison with duplicates before their files are used for repair: daemon/postprocess/DupeMatcher.cpp and RequestDupeSources of
daemon/postprocess/Repair.cpp:131-160. The lines are those passed to AddMessage until unrar ends or is killed after the time limit; the files of a
directory come in the order of the directory. Sizes are below 2^63/100. Paths of 1024 bytes or more and other programs changing the directories are
not modelled.

### DuModel.v

Model of unpacking during the download: daemon/postprocess/DirectUnpack.cpp (Run, ExecuteUnrar, AddMessage, WaitNextVolume, FileDownloaded,
NzbDownloaded, NzbDeleted, Stop) and its calls in daemon/postprocess/PrePostProcessor.cpp:172-175, 355-386, 944-948, 1005-1008. The steps of the
thread, of unrar and of the queue are interleaved in any order; a step is a section under one lock or an access without lock. Unrar is any program
that prints lines, asks for volumes, waits for the answers and ends with any code; it ends when it is killed. Files downloaded stay in the directory.
Which messages unrar prints is abstracted (DuTextModel); messages of the program, times, progress labels, the list of extracted archives and the
directory for the unpacked files are not modelled; starting unrar succeeds.

### DuTextModel.v

Model of the texts of unpacking during the download: daemon/postprocess/DirectUnpack.cpp, which names start an archive (273-279, 549-558), reading the
output of unrar (285-329) and what its lines mean (331-393). Messages for the user, progress labels and the list of extracted archives are not modelled.

### DupeModel.v

Model of the handling of duplicates: daemon/queue/DupeCoordinator.cpp (SameNameOrKey, NzbFound, NzbCompleted,
ReturnBestDupe, HistoryMark, HistoryCleanup) and daemon/queue/HistoryCoordinator.cpp (HistoryHide).
Pointers to downloads are compared by their id. Simplifications: messages, scripts and the deletion of
files are left out; the command which removes a download from the queue (EditEntry with eaGroupDelete)
takes it out at once unless articles of it are being downloaded, and moves it to the history;
IsDupeSuccess and the health are those of StatusModel.v, where they are defined (C26).

### FeedModel.v

Model of feed filters and feed processing: daemon/feed/FeedFilter.cpp,
    daemon/feed/FeedInfo.cpp, daemon/feed/FeedCoordinator.cpp.
Not modelled: the feed parser, regular expressions and floating point numbers (both
are functions in `fenv`, about which nothing is assumed), threads, the preview cache.

### FetchModel.v

The download of one article: servers, levels and retries.

    daemon/nntp/ArticleDownloader.cpp
    72-290   ArticleDownloader::Run

One pass of the main loop is one step.  What comes from outside is part of
an `attempt`: the pool at the call of GetConnection, the outcome of the
connection and of Download (292-409), pauses and stops, and the pool when
the servers of the level are examined.  Download itself is reduced to its
result and to whether it gave the connection back (368).  A call of
GetConnection without result leaves the downloader where it is.

### FfModel.v

Model of the reading of RSS-feeds: daemon/feed/FeedFile.cpp (the branch with libxml2, 46-76 and 361-570) and the parts of FeedItemInfo it sets
(daemon/feed/FeedInfo.cpp:57-78). The input is the sequence of calls the XML parser makes, as for nzb-files. Not modelled: the XML parser, messages,
the season and episode found in the title (they need a regular expression).
`None`: the behaviour is undefined (null pointers, memory behind a text).

### FileStateModel.v

Saving and loading of queued files and of their download state.

    daemon/queue/DiskState.cpp
    1036-1071 SaveFileInfo
    1094-1173 LoadFileInfo (format version 6)
    1191-1217 SaveFileState
    1235-1340 LoadFileState (format version 6)

The name of the partial result file set at 1309-1314 is not modelled.

### GaloisModel.v

PAR2 arithmetic in GF(2^16): lib/par2/galois.h, instance
`Galois16 = Galois<16,0x1100B,u16>` (galois.h:338).

### HistModel.v

The history: how long items stay, editing of items, parking of files and
taking downloads back into the queue.

    daemon/queue/HistoryCoordinator.cpp
    39-84    ServiceWork
    86-117   DeleteDiskFiles
    119-195  AddToHistory
    197-231  HistoryHide
    252-335  EditList
    337-371  HistoryDelete
    373-430  MoveToQueue
    432-536  HistoryRedownload
    538-568  HistoryReturn, HistoryProcess
    570-655  HistoryRetry
    657-711  ResetArticles
    713-764  HistorySetParameter, HistorySetCategory, HistorySetName
    766-868  HistorySetDupeParam
    daemon/queue/DownloadInfo.cpp 415-452 NzbInfo::MoveFileList
    daemon/queue/QueueCoordinator.cpp 432-483 CheckDupeFileInfos
    daemon/postprocess/PrePostProcessor.cpp 407-416 NzbCompleted

Simplifications: deleting files and directories always works; messages are
left out; the logic of duplicates behind the marks "bad" and "good" is the
one of DupeModel and not repeated here (marks are left out); the state files
of a download (in QueueDir) are what the functions `w_load` and `w_state`
give, see C78 and C79 for their content; the articles of a returned file stay
loaded.  The statistics of a download are those of StatsModel.

### IdModel.v

Identifiers of groups and files.

    daemon/queue/DownloadInfo.cpp
    146-171  NzbInfo::SetId, ResetGenId, GenerateId
    780-800  FileInfo::SetId, ResetGenId
    841-850  CompletedFile::CompletedFile
    853-860  DupInfo::SetId
    daemon/queue/DownloadInfo.h
    131      FileInfo::FileInfo
    655      NzbInfo::m_id
    daemon/queue/DiskState.cpp
    321-423  LoadDownloadQueue (order of loading, ResetGenId at 417-418)

Overflow of the counters (more than 2^31 objects) is not modelled.

### InfoModel.v

Small list containers of the queue objects.

    daemon/queue/DownloadInfo.cpp
    36-58   NzbParameterList::SetParameter
    60-71   NzbParameterList::Find
    73-79   NzbParameterList::CopyFrom
    82-97   ScriptStatusList::CalcTotalStatus
    100-135 ServerStatList::StatOp
    137-143 ServerStatList::ListOp

### LineModel.v

Text lines of the state files.

    daemon/queue/DiskState.cpp
    44-58    StateDiskFile::PrintLine
    60-80    StateDiskFile::ReadLine
    86-100   StateDiskFile::ScanLine
    daemon/util/NString.cpp
    88-94    BString::FormatV
    daemon/util/FileSystem.cpp
    1169-1172 DiskFile::Write, 1183-1186 DiskFile::ReadLine (fgets)

### LogModel.v

Model of the message log: daemon/util/Log.cpp, AddMessage (283-294), Clear (277-281),
InitOptions (369-424), the length limit of info() and its companions (230-275), and
of the remote call `log`: daemon/remote/XmlRpc.cpp, LogXmlCommand::Execute (1384-1451).
Not modelled: the log file, the message time, the text of the response (only which
messages it holds), the mutex.

### MoveModel.v

Model of moving and sorting queue entries, daemon/queue/QueueEditor.cpp.
A queue (list of groups, or the list of files of a group) is the list of the
ids of its entries; objects are identified by their ids.

### NameModel.v

Model of file and directory names: daemon/util/FileSystem.cpp (BaseFileName, ReservedChar,
MakeValidFilename, MakeUniqueFilename, RenameBak), daemon/queue/DownloadInfo.cpp
(MakeNiceNzbName, BuildDestDirName, BuildFinalDirName) and the header of
    daemon/queue/UrlCoordinator.cpp from which a category is taken. POSIX variants
(PATH_SEPARATOR is the slash, main/nzbget.h:351-352). Names are texts without terminator.
Which regular files exist is a list of paths. Not modelled: Windows variants.

### NextModel.v

Model of the choice of the next article: daemon/queue/QueueCoordinator.cpp, GetNextArticle (507-599),
GetNextFirstArticle (601-630), StartArticleDownload (649-651) and the status changes of
ArticleCompleted (694-719); of the next URL: daemon/queue/UrlCoordinator.cpp, GetNextUrl.
Pointers to groups and files are their positions in the lists. Simplifications: the articles of
a file are present (they are loaded from disk on demand, C78), times are not cut to 32 bits,
pause, quota and options do not change during one call.

### NntpModel.v

Model of a connection to a news server: daemon/nntp/NntpConnection.cpp with reading and writing of daemon/connect/Connection.cpp, as used by
daemon/nntp/ArticleDownloader.cpp. The network and the server are arbitrary: what can be written and what is read next is a function of
all that happened before, on this and on earlier connections. Lines read are as ReadLine gives them (see ConnModel). Names,
passwords, groups and identifiers have no NUL inside. Texts sent are cut to 1023 bytes. A write succeeds as a whole or not at all. Not modelled:
messages, TLS, the choice of the address.

### NumFmt.v

Decimal and hexadecimal text, as printed by printf ("%i", "%lli", "%08x")
and read by atoi/atoll/strtol/strtoul of the C library.

### NzbModel.v

Reading of nzb-files: daemon/queue/NzbFile.cpp (the branch with libxml2).
The input is the sequence of calls the XML parser makes; the file itself matters only for the password.
The list of the articles of a file is a list of slots (slot `i` is part `i + 1`), holes are parts which do
not occur in the nzb-file. Sizes of files and groups are computed by StatsModel (add_file_info, process_file).
Not modelled: messages, saving of the files on the disk, minimum and maximum time, the XML parser.
`None`: the behaviour is undefined (null pointers, freed memory, memory outside of a buffer).

### OptModel.v

Options: daemon/main/Options.cpp (POSIX), and the reading and writing of the configuration file by the web
interface, daemon/extension/ScriptConfig.cpp:47-143.
Texts are C strings (no zero bytes). Inputs of the model: the expansion of paths that start with the home
directory, the contents of files. Not modelled: the spelling (letter case) of stored names, which FindOption
adjusts at every use; line numbers and texts of messages (an error is recorded as the name it is about);
creation of directories; the search for the configuration file; the numbers made of the parsed options
(multiplications at lines 708, 733-739); options of builds without TLS, curses or par2.

### ParModel.v

Names of par2-files and the choice of those to download for a repair: daemon/postprocess/ParParser.cpp,
daemon/postprocess/Repair.cpp:304-468 and the waiting for them in daemon/postprocess/ParChecker.cpp:653-786.
Names are texts without zero bytes; conversion to lower case as in the C locale. Not modelled: messages.

### ParRenModel.v

Model of the renaming by par2-files after the download: daemon/postprocess/ParRenamer.cpp.
The disk is a list of paths of regular files with their contents (RarSetModel.v); which renamings
the system refuses is a function `can`. What the par2-library reads from a file is a function
`load` of its content: nothing, or the list of the files described in the order of the library,
each with the name as written and the printed hash of its first 16 KB, or without a description.
The hash itself is a function `md5`. Memory that is read before it is set is a parameter: `junk`
for the header of files shorter than one, `len0` for the length of a base name. The directories
are given as the list that `BuildDirList` makes. Paths are shorter than 1024 bytes and have no
terminator inside. Not modelled: stopping, messages and progress, errors of reading, links,
`RegisterRenamedFile` and `RegisterParredFile` of the caller (the renamings are a result).

### PoolModel.v

The pool of news server connections.

    daemon/nntp/ServerPool.cpp
    48-90    NormalizeLevels
    92-138   InitConnections
    143-166  GetConnection
    168-230  LockedGetConnection
    232-251  FreeConnection
    253-280  BlockServer, IsServerBlocked
    282-348  CloseUnusedConnections
    350-356  Changed
    daemon/main/Scheduler.cpp 265-310, daemon/remote/XmlRpc.cpp 2939-2957
activation of servers

Every function here runs under one mutex and is one step.  Servers and
connections are identified by numbers instead of pointers.  The random
choice among the candidates is a parameter.  std::sort is an insertion
sort; the order among servers of equal level is not used by any statement.
Access outside of m_levels is `None`.

### PostModel.v

The post-processing queue: daemon/postprocess/PrePostProcessor.cpp and the results of the jobs it starts.
A job runs in a thread of its own; everything here happens under the lock of the download queue, so an execution
is a sequence of the events below. The time, the messages, the disk, queue-scripts and the direct unpacker are
inputs (the files found in the directory, the programs run). Not modelled: saving the queue, the history, and
the search for duplicates after a download.

### QScrModel.v

Model of the queue-scripts: daemon/extension/QueueScript.cpp, the coordinator and the choice of scripts. Pointers to scripts are
their positions in the list of scripts. The download queue and the history are a map from ids to what is asked about a download.
Names and values have no NUL inside. Not modelled here: the process of a script, its environment and its messages (ScrModel),
threads: each function runs while it holds the lock.

### RSModel.v

PAR2 Reed-Solomon repair: lib/par2/reedsolomon.h and reedsolomon.cpp for `Galois16`, as
used by `Par2Repairer::ComputeRSmatrix` and `ProcessData`. Matrices are lists of rows.

### RarModel.v

Model of the reading of volumes of rar-archives: daemon/postprocess/RarReader.cpp and .h.
A file is the list of its bytes; a reader works on the bytes, on the position in the file and
on the count of bytes left in the current block (`trailsize`, modulo 2^64). `fread` gives as
many bytes as asked for or the function reading it gives up; `fseek` fails if the target is
before the beginning (or cannot be represented) and may go beyond the end. `feof` is set by an
incomplete reading only, after which all functions return, hence `while (!file.Eof())` is
`while (true)`. Shifting a 64-bit value by 64 bits or more is undefined (`Ub`). The loop over
the blocks gets a bound on the count of blocks; `Endless`: the bound was reached.
Not modelled: files that cannot be opened, encryption (the model is that of a volume without a
password set), messages, the checksums of blocks (which are not checked by the code), reading
of `addbuf` without a value (RarReader.cpp:283-288; the result isn't used then).

### RarSetModel.v

Model of the renaming of rar-volumes: daemon/postprocess/RarRenamer.cpp.
The disk is a list of paths of regular files with their contents; which renamings the system
refuses (besides those of files that are not there) is a function `can`. Volumes keep the path
they had when they were read. A set of volumes is the list of them. Names have no terminator
inside and are shorter than 1024 bytes where this is said (`BString<1024>` cuts longer ones,
modelled where names come from an archive). Numbers of volumes printed are below 2^31 - 1.
Not modelled: stopping, messages and progress, links, `RegisterRenamedFile` of the callers (the
list of renamings is a result), Windows variants.

### Rfc822Model.v

Model of the dates of feed items: daemon/util/Util.cpp:1358-1402,
`WebUtil::ParseRfc822DateTime`. sscanf of the C library is modelled for the conversions
used; overflow of `int` is not modelled.

### RpModel.v

Model of the parameters of remote procedures: daemon/remote/XmlRpc.cpp, class XmlCommand (850-1054, 1080-1093) and the commands reading many of them:
rate, scheduleresume, editqueue, append, writelog, editserver. The text of the request is the string behind m_requestPtr; texts given back are cut off
in place, which is behind the pointer and is never read again. What the commands then do with queue, log and servers is the subject of other files; here
it is only named. Numbers of more than 64 bits and texts of 2^31 bytes are not modelled.

### ScanModel.v

Model of the decision when a file in the incoming directory is ready: daemon/queue/Scanner.cpp.
Not modelled: reading the directory, scan scripts, adding the file to the queue.

### SchedModel.v

Model of the scheduler: daemon/main/Scheduler.cpp, CheckTasks (95-174),
ServiceWork (69-92), ScheduleNextWork (53-67), the choice made by ExecuteTask
(176-236). Not modelled: what a command does once it is chosen, the log lines, the
mutex. `gmtime_r` is the calendar of CalendarSpec, for times from 1970 on.

### ScrModel.v

Model of what scripts say and are told: daemon/util/Script.cpp (output, environment, arguments), daemon/extension/PostScript.cpp and
ScanScript.cpp (commands), daemon/extension/NzbScript.cpp (list of scripts, environment), daemon/queue/Scanner.cpp (parameters of
new downloads). Texts have no NUL inside, but for the output of processes. The display name of a script, ": " and the rest of
messages are as in the code; a message is cut to 1023 bytes. Not modelled: the process itself, its exit code (see PostModel), pausing of
post-processing while a script prints, locks, the first line that tells that the process was started (CHILD_WATCHDOG).

### StateFileModel.v

State files as sequences of file system operations.

    daemon/queue/DiskState.cpp
    127-139   StateFile::StateFile
    141-144   StateFile::Discard
    148-156   StateFile::ParseFormatVersion
    158-161   StateFile::FileExists
    163-175   StateFile::BeginWrite
    177-220   StateFile::FinishWrite
    222-254   StateFile::BeginRead
    263-319   DiskState::SaveDownloadQueue
    321-423   DiskState::LoadDownloadQueue (queue, progress and history files)
    425-459   DiskState::SaveDownloadProgress
    1478-1523 DiskState::DiscardDownloadQueue, DownloadQueueExists
    daemon/queue/QueueCoordinator.cpp
    112-131   QueueCoordinator::Load
    daemon/postprocess/PrePostProcessor.cpp
    189-210   PrePostProcessor::SanitisePostQueue

A file system operation is atomic and durable once performed; the program
may be killed between any two of them.  Writing a file is a sequence of
appends of arbitrary pieces (stdio decides the pieces).  Errors of the
operations themselves are modelled only for writing (a full disk).

### StatsModel.v

Statistics of a download group (class NzbInfo) and how every queue operation
updates them.

    daemon/queue/DownloadInfo.cpp
    652-693 NzbInfo::UpdateCurrentStats
    695-714 NzbInfo::UpdateCompletedStats
    716-749 NzbInfo::UpdateDeletedStats
    751-768 NzbInfo::IsDownloadCompleted
    802-819 FileInfo::SetPaused, FileInfo::SetExtraPriority
    daemon/queue/QueueCoordinator.cpp
    633-658   StartArticleDownload
    680-797   ArticleCompleted
    799-819   DeleteDownloader
    821-894   DeleteFileInfo
    1077-1095 DeleteQueueEntry
    1148-1229 MergeQueueEntries
    1236-1347 SplitQueueEntries
    1383-1436 DiscardDirectRename
    1438-1488 DiscardDownloadedArticles
    daemon/queue/DirectRenamer.cpp 190-213 (change of the par2 flag)
    daemon/queue/NzbFile.cpp 60-113 AddFileInfo, 349-379 ProcessFiles
    daemon/nntp/ArticleWriter.cpp 449-457 (a vanished temporary file)

Simplifications: int and int64 counters are unbounded integers; the articles
of a file are always loaded (the code loads them lazily from disk and frees
them again); times, messages and disk effects are left out, except that the
deletion of the output of an already completed file is recorded.  Unlocked
sections are represented by separate operations that may be interleaved.

### StatusModel.v

Health and status of downloads.

    daemon/queue/DownloadInfo.cpp
    82-97    ScriptStatusList::CalcTotalStatus
    270-286  NzbInfo::CalcHealth
    288-317  NzbInfo::CalcCriticalHealth
    493-509  NzbInfo::IsDupeSuccess
    511-650  NzbInfo::MakeTextStatus
    daemon/queue/DownloadInfo.h 323-328, 376-447 enumerations

int64 arithmetic on sizes is unbounded here: products with 1000 stay in
range below 9 petabytes.  Division truncates (`Z.quot`); a division by zero
is `None`.

### SvcModel.v

Model of the services and of the watch over the disk: daemon/util/Service.cpp, daemon/main/DiskService.cpp, and the parts of daemon/main/WorkState.h and
daemon/postprocess/PrePostProcessor.cpp about temporary pauses. Times in seconds. The clock runs evenly while a thread waits; stopping is left out.

### UnpackModel.v

Unpacking: daemon/postprocess/Unpack.cpp. The runs of the external programs are inputs of the model (the lines
they print, their exit codes and stops by the user), so is whether moving the extracted files succeeded.
Not modelled: command lines, progress, the search for archives in the directory (its result is an input), and
the deletion of archives after success.

### VolumeModel.v

Volume statistics, quota and speed meter: daemon/nntp/StatMeter.cpp.

`None` stands for an access outside an array (undefined behaviour for the
`operator\`\`` accesses of AddData, an exception std::out_of_range for the
`at` accesses of CalcQuotaUsage).  int64 counters are unbounded integers;
the conversions of time_t to int are modelled (`to_int`).

### WebGetModel.v

Downloads from web servers: daemon/connect/WebDownloader.cpp and class URL of daemon/util/Util.cpp:1409-1484.
The peer's answer is a stream of bytes; the lines of its head do not depend on how it arrives (ConnModel), the
body is a list of pieces. Unpacking of gzip is a parameter: what comes out of the bytes given so far.
Not modelled: stopping and pausing, TLS, names of hosts, errors of the file system, the additional headers of
UrlDownloader (see NameModel). `None`: the behaviour is undefined.

### WebModel.v

The built-in web server: daemon/remote/RemoteServer.cpp (ServWebRequest),
    daemon/remote/WebServer.cpp and the front part of daemon/remote/XmlRpc.cpp.
The connection is the stream of bytes still to be read (see ConnModel: how they arrive is irrelevant).
Not modelled: gzip, entity tags, writing of log messages, the bodies of the remote procedures (except
config/loadconfig), the texts of error pages. Files below the web directory are a partial map from
paths to contents. `None` as result: the behaviour is undefined.

### WildModel.v

Model of wildcard matching, tokenizing and command-line splitting,
    daemon/util/Util.cpp. Strings are the bytes before the NUL.

### WriterModel.v

Writing of articles: daemon/nntp/ArticleWriter.cpp (Start, Write, Finish, FlushCache, CompleteFileParts,
ArticleCache), as used by daemon/nntp/ArticleDownloader.cpp (Write, Download).
One file with its articles. Every article has its writer (the ArticleDownloader that works on it).
Operations of different articles are interleaved freely; the mutexes make each operation atomic, and the
writes through different file handles take effect at once (buffers of the C library are not modelled).
Not modelled: raw mode, SkipWrite, errors of the file system, the check for duplicate files,
renaming while a file is completed.
`None`: the behaviour is undefined (memory outside of a buffer, a file that is not open).

### YencModel.v

Model of the yEnc encoder of the NServ test server and of the scalar yEnc
decoder used by the downloader.

## Properties

How each one is proved, and what is missing or false. Status as in MANIFEST.json.

| id | property | status | method | what is missing or refuted |
|----|----------|--------|--------|------|
| C01 | yEnc round trip between the built-in poster and the downloader | proved | induction over the byte list with an invariant relating encoder column and decoder state | scalar decoder and NServ encoder; SIMD variants not modelled |
| C02 | yEnc decoding does not depend on how the network splits the data | proved | the decoder is a fold over bytes; fold over append |  |
| C03 | The fast CRC-32 equals the standard CRC-32 | proved | table lemma by 256-entry sweep, linearity of the CRC, induction |  |
| C04 | Combining article CRCs gives the CRC of the whole file | proved | matrices act as appending zero bytes; linearity over xor | segments shorter than 2^32 bytes (the length parameter is a 32-bit unsigned) |
| C05 | Article acceptance: size and checksum are both enforced | proved | characterisation of the accepting state by induction over the lines | acceptance is exactly the stated condition on the decoded bytes; the written bytes can differ for an article with two bodies in one buffer (refuted) |
| C06 | XML text encoding is lossless and produces no markup | partial | induction over characters; strict XML reader as specification; witnesses | encoder proved against a strict XML reader for all text; the program's own decoder inverts it only for ASCII (refuted for other text) |
| C07 | JSON text encoding is lossless and produces a legal string body | partial | induction over characters; strict JSON reader as specification; witnesses | encoder proved against a strict JSON reader; characters beyond U+FFFF are lost; own decoder wrong after \u followed by a hex digit |
| C08 | URL encoding round trip | partial | induction; witnesses | '%' and unprintable bytes are not escaped |
| C09 | In-place text decoders never read beyond the end of the string | partial | outcome for reads behind the terminator; invariants of the in-place loops; witnesses | no write behind the terminator for all five; over-reads exist exactly for truncated escapes |
| C10 | JSON value scanner returns whole values | partial | induction over JSON values; witnesses | wrong for strings with adjacent escapes |
| C11 | Base64 decoding inverts standard Base64 encoding | proved | induction over triples, 64/256-entry sweeps |  |
| C12 | Wildcard masks mean what they say | partial | equivalence of the backtracking loop with an inductive glob relation; positions by invariant | verdict proved for all masks and texts; '#' also matches '#'; reported positions right only when no ?/# follows a * |
| C13 | Tokenizer yields exactly the non-empty trimmed fields | proved | equivalence with a declarative split |  |
| C14 | Command-line splitting honours quotes | partial | equivalence with a grammar of arguments; witnesses | empty arguments are dropped and arguments over 1023 bytes are cut |
| C15 | Calendar conversion is exact | proved | arithmetic against a day-counting calendar, both directions |  |
| C16 | 64-bit sizes survive being stored as two 32-bit halves | proved | arithmetic with explicit wrap-around |  |
| C17 | Group statistics agree with the files they summarise | partial | invariant over 22 counters, induction over queue operations; witnesses | all 22 statistics proved for every history without group deletion, vanished temporary files and active direct renaming; each exclusion is shown necessary |
| C18 | Merging and splitting groups conserves the statistics | partial | sums before and after; witnesses | merge loses the extra-priority count; split gets paused count, missed sizes and extra priority wrong |
| C19 | Moving groups only reorders the queue | partial | permutation and order lemmas over list operations | proved for all queues, selections and targets while index + offset fits into int; an offset near INT_MAX overflows (undefined behaviour) |
| C20 | Sorting groups is a stable sort of the selection | proved | insertion sort is the unique stable sort; lifting to the selection | std::stable_sort is modelled as insertion sort |
| C21 | Next article comes from the best available file | partial | induction over the queue, loop measure; witnesses | Search ends, finds an article iff one is left, best file under the condition that extra-priority groups have something to download; no article is handed out twice. Without the condition a lower priority wins; with direct renaming first articles of paused and deleted files are fetched (refuted). |
| C22 | Identifiers stay unique | partial | invariant over histories with restarts; witness | New identifiers are never equal to a live one, for every history of creations, removals and restarts from states without repeated ids. A kill between saving queue and history leaves a download with the same id in both (C22_twice_refuted). |
| C23 | State files survive a crash at any point | partial | crash at every prefix of operations; invariant over histories; witnesses | proved for files that were saved once; the first save, discarded files and non-transactional files are refuted |
| C24 | Saving and loading a queue entry preserves it | partial | printer/parser round trip, field by field; witnesses | all attributes except duplicate mode, hint and post-processing stage; these are refuted, as are times after 2038 |
| C25 | State file lines are written and read within their buffers | partial | line round trip; witnesses | proved for lines of up to 1022 bytes; longer lines refuted |
| C26 | Health is a permille that only reflects losses | partial | arithmetic; witness | Range, monotonicity, and 1000 exactly when no non-par data failed. With failed par data alone the health stays 1000 (refuted). |
| C27 | Server connections are never shared or overcommitted | proved | invariant over pool operations, counting | the availability part needs that Changed follows an activation (the refuted theorem shows a history without it) |
| C28 | An article is declared failed only after every usable server was tried | partial | coverage invariant of the retry loop; witnesses | refuted for articles that cannot be written: a damaged yEnc header from one server ends the download without asking the others; proved for all other runs |
| C29 | Files are assembled with every article at its own offset | partial | simulation of all interleavings by an abstract map from offsets to bytes; witnesses | Proved for yEnc articles which keep to their places, for every order, any attempts, cache and flush decisions, restarts. False for UUEncoded articles in the cache, for forced direct writing with a flushed cache, after a restart without further articles, and for articles longer than announced, which the decoder accepts. |
| C30 | Article cache accounting balances | partial | sum invariant over cache operations; witnesses | The sum is always right. The limit holds unless a block is enlarged; a block of size zero is never released. |
| C31 | The best duplicate backup is chosen | partial | induction over the history list; witness | Best backup, first among equals, strictly above successes and queued NZBs, none if good. Queued URLs of the title are not counted (refuted). |
| C32 | Duplicate content is never downloaded twice | partial | case analysis of the duplicate check; witness | Copies are always marked, except downloads brought back by hand, where a good duplicate in front hides the copy (refuted). |
| C33 | Feed filter expressions are evaluated as Boolean formulas | partial | rewriting invariant of the expression reducer against Boolean formulas; witness | proved for formulas with negated words; a minus sign in front of a group is ignored |
| C34 | Feed filters decide by the first decisive rule | proved | induction over the rules |  |
| C35 | Volume statistics account for every byte once | partial | invariant over reports with wrap-around of the slot arrays; witnesses | totals and array bounds proved for every clock up to 2038; per-day volumes when no report is from a day before the first one, otherwise refuted; faults from 2038 on |
| C36 | Quota check never faults and sums the billing month | partial | arithmetic of slots and months; witnesses | proved when the clock is not before the first recorded day; otherwise the check faults; nothing is counted from 2033-01-15 on |
| C37 | Scheduled tasks run once per due time | partial | interval argument over the minutes between two checks; witness | proved for a constant local time offset; a changing offset executes a task twice |
| C38 | The message log keeps the newest messages | partial | induction over messages; witnesses | proved after every message once options are read; reading the options itself leaves the log above the limit and renumbers messages |
| C39 | PAR2 arithmetic is the field GF(2^16) | proved | log/antilog tables checked by computation, algebra on top | operator ^= (unused) is not the power: C39_power_assign_refuted |
| C40 | Solving the PAR2 repair equations recovers the data | proved | Gauss elimination invariant: row operations keep the solution set |  |
| C41 | Text buffers never overflow | partial | byte-level memory, invariant over operations; witnesses | Byte-level memory model: every sequence of operations stays inside the storage. CString::Replace beyond the end reads outside, ReplaceAll of the empty text never ends (refuted). |
| C42 | Group parameters behave as a case-insensitive map | proved | refinement to a finite map |  |
| C43 | Per-server statistics add up | proved | refinement to a finite map of sums |  |
| C44 | File names taken from the network are made safe | partial | induction over the name; witness | Safe, idempotent, rest of the name kept. A name can become empty (refuted). |
| C45 | Web access requires valid credentials | proved | case analysis of credentials against a declarative relation |  |
| C46 | The web server never serves files outside its directory | partial | induction over the path; witness | Proved for web directories of up to 1023 bytes; longer ones are cut (refuted). |
| C47 | Post-processing status text is consistent with the outcome | proved | case analysis over all result combinations | Defined, never INTERNAL_ERROR; first word characterised for every combination of results. |
| C48 | Article decoding does not depend on how the network splits the article | partial | simulation between split and whole input; witnesses | proved for NUL-free well-formed multi-part articles; refuted for single-part articles with a part= field in =yend and for raw NUL bytes |
| C49 | A retried article is judged like a fresh one | partial | equality of decoder states; witness | Holds unless an earlier attempt was taken for UUEncode; Clear keeps the detected format. |
| C50 | UUEncoded articles are decoded | partial | witness | false of the code: the decoded bytes stay in the line buffer, raw input bytes are written |
| C51 | End of article in raw mode | partial | induction over buffers; witness | sound always; complete only for buffers of at least four bytes |
| C52 | The text encoders stay inside the buffer they reserve | proved | length bounds by induction |  |
| C53 | Latin-1 text is converted to the UTF-8 of its characters | proved | induction over bytes |  |
| C54 | A sort command never touches groups it does not name | partial | witness and frame lemma | refuted: an id list without any queued group sorts the whole queue |
| C55 | File sort order is a valid ordering | partial | witness (cycle) | refuted: the comparison has a cycle |
| C56 | Pausing extra par files keeps the smallest one | proved | minimum over a list |  |
| C57 | Reordering files follows the given order | partial | order lemmas for stable moves; witness | proved for id lists without repetition; a repeated id loses its place |
| C58 | A completed file is never thrown away again | partial | witness and invariant | refuted: a one-article par2-file completed last while direct renaming runs is discarded |
| C59 | Splitting moves exactly the selected files | partial | partition lemmas; witness | proved for selections within one group; files of other groups put null pointers into the new group |
| C60 | Total script status | proved | induction over scripts |  |
| C61 | Recent volume statistics cover the last minute, hour and day | partial | invariant over reports; witnesses | seconds proved; minutes and hours proved unless reports are one to 60 minutes (1 to 24 hours) apart, where refuted |
| C62 | Quota periods follow each other without gap or overlap | proved | calendar arithmetic |  |
| C63 | Speed meter | partial | ring buffer invariant; witness | proved for a clock that does not run backwards; negative speed otherwise |
| C64 | Scheduled commands are replayed in order after a start or clock change | proved | ordering of replayed commands |  |
| C65 | The scheduler wakes at the next full minute | proved | calendar arithmetic |  |
| C66 | Polling the message log | proved | induction over polling | fewer than 2^31 messages |
| C67 | Volume totals of servers add up | proved | sums over servers | clock up to 2038 |
| C68 | Words of feed filters | proved | equivalence with a declarative word relation | titles without zero bytes |
| C69 | Size and age terms of feed filters | proved | arithmetic | products below 2^53, exact in the double arithmetic used |
| C70 | References in feed filter options | partial | positions of wildcard matches; witness | proved for non-empty groups and masks without question mark after an asterisk; an empty group gives the rest of the word |
| C71 | Compiling a feed filter stays inside the filter text | partial | invariant of the in-place compiler; witnesses | filter texts whose last character is not ) ( : - + or % |
| C72 | Feed items are queued once | partial | invariant over feed runs; witness | clean-up claim false for FeedHistory=0 |
| C73 | Retry intervals of failed feeds | proved | arithmetic, induction over failures |  |
| C74 | As many recovery blocks as missing blocks suffice | partial | Vandermonde argument; witness | proved for consecutive exponents and for one missing block; false in general |
| C75 | A save that does not fit on the disk keeps the previous state | partial | witness | false: the result of writing is never checked |
| C76 | No download is forgotten by a restart | partial | crash at every prefix; witness | each file separately is old or new; together refuted |
| C77 | Post-processing after a restart | partial | witness and round trip | the loaded stage is one too high |
| C78 | A partially downloaded file resumes where it was | partial | round trip; witness | offsets below 4 GiB |
| C79 | File descriptions survive a restart | partial | round trip; witness | times before 2038 |
| C80 | Server levels are normalised | proved | order-preserving renumbering | by design nothing is downloaded when all servers of the lowest level are inactive (refuted theorem) |
| C81 | Each server gets the configured number of retries | partial | counting over runs of the retry loop; witness | proved without lost connections and server groups; refuted when a connection is lost between two retries: the next server inherits the remaining retries |
| C82 | Dates of feed items | partial | scanner equivalence and calendar; witness | zones less than an hour east of Greenwich are taken for west |
| C83 | Critical health tells repairable from unrepairable | partial | arithmetic; witness | Holds while no par data failed; with failed par data a repairable download is taken for unrepairable (refuted). |
| C84 | Duplicate handling and the shown status agree on success | partial | case analysis over all result combinations; witnesses | SUCCESS texts always count as success. FAILURE texts count as failure except FAILURE/MOVE and unprocessed downloads of low health (refuted). |
| C85 | Downloads stay inside their destination directory | partial | path algebra; witnesses | Holds for categories without steps upwards and names of which something is left. A category sent by a web server leaves the directory; a name can become empty; the name of a split download is not made safe (refuted). |
| C86 | A new file name never collides with an existing file | proved | search loop with a pigeonhole bound | First free numbered name; termination. |
| C87 | Files being written are not taken from the incoming directory | partial | induction over scans; witness | Size unchanged since the previous look and first seen long enough ago. The time of the last change is never updated, so a file which changed a second ago is taken (refuted). |
| C88 | URLs are fetched in the order of priority | proved | induction over the queue |  |
| C89 | A new download is refused exactly for the documented reasons | partial | exact decision table against a declarative relation; witness | Decision characterised exactly. A refused download can already have driven queued ones of lower score out (refuted). |
| C90 | Hiding items of the history does not lose duplicate protection | proved | case analysis, counting | For downloads whose health is defined. |
| C91 | Data from a connection does not depend on how it arrives | partial | streams: every schedule gives the same bytes; witness | Everything except WriteLine, which reports success after a partial send (refuted). |
| C92 | Each web request gets one response and the connection stays in step | partial | parser of rendered requests; witnesses | One response for all addresses except /nzbget, which gets two; what follows is served exactly if the client asked to keep the connection; the body of a refused request is taken for the next request (refuted). |
| C93 | Heads of web responses are complete | partial | length arithmetic; witness | Complete while the whole head fits 1023 bytes (an Origin of up to 300 bytes always does); cut otherwise (refuted). |
| C94 | Remote procedures respect the rights of the user | partial | case analysis of protocols and rights; witnesses | Rights proved for all calls. JSON-P runs everything by GET; calls inside system.multicall use rights that were never set (refuted). |
| C95 | Every web request is processed in a defined way | partial | totality of the parsers; witnesses | Addresses that are not empty and have no percent sign; the others are refuted. |
| C96 | Data of articles stays inside its memory | proved | invariant over writer operations |  |
| C97 | A new download has each article of its nzb-file once | proved | event grammar against the handlers, induction over documents |  |
| C98 | Sizes and counters of a new file add up | partial | loop invariant of the counting loop; witnesses | Proved for sizes that are not negative. A segment without stated size counts as -1, and sizes above 2^31 come out negative (refuted). |
| C99 | Every nzb-file is read in a defined way | partial | invariant of the handlers over tame documents; witnesses | Proved for documents without nesting of files or segments and without empty segments; those, and an nzb-file that becomes empty before the password is read, are undefined (refuted). |
| C100 | The name of a file is read from its subject | partial | scanner equivalence with declarative words; witnesses | Proved for subjects up to 1022 bytes; a few odd subjects and subjects of 1023 bytes are read outside of the buffer, and empty quotes give a wrong name (refuted). |
| C101 | Files of a new download can be told apart | partial | counting argument for equal names; witnesses | Told apart as stated before the names are made valid; after that names can be equal or empty (refuted). |
| C102 | The content fingerprint of a download does not depend on the order in its nzb-file | partial | uniqueness of sorted lists, equality with the published hash; witnesses | Proved when names differ; with equal names the order matters, and articles instead of files are counted when deciding whether enough remains (refuted). |
| C103 | A password in an nzb-file is read as it was written | partial | search and decoding lemmas; witnesses | Proved for passwords near the beginning written with the usual entities; passwords far from the beginning and numeric entities are refuted. |
| C104 | A web download succeeds only with the complete content | partial | loop invariant over the pieces, parser of rendered answers; witnesses | Proved for answers with code 200 and lengths below 2^31 (for packed data relative to the unpacker). The page of a redirection without location, packed data cut off and a length of 4 GB are accepted wrongly, an empty file never arrives (refuted). |
| C105 | The parts of an address are read as written | partial | position lemmas for separators; witnesses | Proved for hosts without colon and resources that start with a slash; IPv6, an empty port, a query without path and an empty host are read wrongly (refuted). |
| C106 | Redirections lead where the server says | partial | path algebra, round trip of addresses; witnesses | Proved up to 1000 bytes; a path with an address in its query, an address with host but without protocol and long locations go wrong (refuted). |
| C107 | The name of a web download is the one the server gives | partial | scanner lemmas; witnesses | An empty name is read in front of the buffer, further parameters and escaped quotes give wrong names (refuted). |
| C108 | Web downloads are repeated as configured | proved | induction over attempts |  |
| C109 | Requests to web servers are complete | partial | length arithmetic; witnesses | Proved up to 1008 bytes; longer resources lose the line end, and credentials of the address are never sent (refuted). |
| C110 | A repair asks for the par2-files it needs and no more | partial | invariants of greedy choice and discarding, permutations; witnesses | Proved when the number of blocks fits into an int. If the par-set itself has too few blocks, files of other par-sets are resumed in place of its own, and the choice is not the least one (refuted). |
| C111 | Par2-files are recognised by their names | partial | scanner lemmas against a grammar of names; witness | Proved for names below 1024 bytes. The main file of a par-set with a name like x.vol1-2 is taken for one of its volumes (refuted). |
| C112 | Every par-set of a directory is found once | proved | invariant of the scan, equivalence classes | For names below 1024 bytes (file systems allow 255). |
| C113 | The par-checker does not wait for nothing | partial | inductive invariant over interleavings, ranking; witness | A file deleted between the request and the resetting of the flag is not noticed; the checker then waits forever (refuted); proved when that does not happen. |
| C114 | Post-processing of a download does not go on for ever | proved | ranking function over job kinds, simulation by a per-download transition relation | For executions in which the user does not delete a job at the one wrong moment (C120). |
| C115 | A job of post-processing starts only when it may | proved | case analysis of the choice, invariant over executions | As C114. |
| C116 | PostStrategy limits the number of jobs | proved | inductive invariant over executions | As C114. |
| C117 | Post-processing takes the most important download and forgets none | proved | fold invariant; measure for the loop | As C114. |
| C118 | The number of post-jobs is right | proved | inductive invariant | As C114. |
| C119 | Post-processing scripts are heard | partial | induction over scripts; witness | The statuses are proved; a par-check requested by a script is not done, and the statuses of the scripts are lost (refuted). |
| C120 | Deleting a post-job is safe | partial | inductive invariant; witness | Safe if the job is working or not taken up yet; a job deleted between its end and the next look at the queue leaves a dangling entry, the next look uses a null pointer (refuted). |
| C121 | Unpacking succeeds only if everything was extracted | partial | invariant over output events, equivalence with a declarative good run; witness | Success is proved real and seen; already the message about success of 7-Zip is compared with memory before its start (refuted; the outcome does not depend on it for messages with the name of the program in front, C121_defined). |
| C122 | Passwords are tried in order, and all of them | partial | induction over the list; line reader lemmas; witness | Proved for lines below 510 bytes; longer ones are tried in pieces (refuted). |
| C123 | Joined files are whole | partial | fold invariant of the scan, pigeonhole; witnesses | Proved if the directory holds parts of one file only. With parts of two files a truncated file is reported as success or complete files are refused; a file of a single part after a good par-check divides by zero (refuted). |
| C124 | A setting takes effect, the last one counts | partial | invariant over lists of settings; witness | Proved for all settings; without a configuration file an obsolete option on the command line uses a null pointer (refuted). |
| C125 | References to options are replaced | partial | induction over pieces, fuel; witnesses | Proved for names up to 99 characters and values without further references. Known names behind an unknown one stay, a reference to itself hangs the program, and defaults do not follow MainDir (refuted). |
| C126 | Numbers and words of options mean what they say | partial | scanner lemmas, tables by computation over their finite domain; witnesses | Proved for numbers within an int and the tables with the right count. Empty and too large numbers are taken silently; the counts of the tables of ParCheck and FileNaming are too large, unknown words read behind them (refuted). |
| C127 | Each line of the configuration file is one setting | partial | line reader lemmas; witnesses | Proved for files of at least two bytes that end with a line end or have several lines. A file of one LF hangs, a single line without line end is cut (refuted). |
| C128 | Tasks run at the times and days given | partial | induction over lists, bit masks; witnesses | Well-formed lists are proved; incomplete ones like '12:' and '1-' are taken, the minute of '*' is not set (refuted). |
| C129 | Servers and tasks are those defined | partial | induction over numbers, injectivity of numbered names; witnesses | A task with an unknown command is reported but then pauses downloads; a definition with an IP version only ends the list silently (refuted). Checks of the command lines of processes are not modelled. |
| C130 | Old configuration files keep their meaning | partial | case analysis over the finite tables, fold invariant over scripts; witness | Old names of fields of categories and feeds are renamed only in the usual letter case (refuted for others). |
| C131 | The category of a download is found | proved | first match lemmas, wildcard semantics |  |
| C132 | Saving the configuration loses nothing | partial | round trip; witnesses | Proved for files that end with a line end and settings without line feeds and blanks at the end. Otherwise the last comment swallows the first new setting, values inject settings, blanks are lost (refuted). |
| C133 | Restricted users do not see secrets | partial | search lemmas; witness | Proved for names up to 1023 characters; beyond, secrets are shown (refuted). |
| C134 | Items stay in the history as long as configured | partial | loop invariant from the end of the list, inductive specification; witnesses | Proved below 24856 days; from there on an int overflows. Against the documentation the files of failed items are not deleted when they leave (refuted). |
| C135 | Editing the history changes exactly the named items | partial | fold invariants, case analysis per action; witnesses | The answer for several items is that of the last one, and 'true' also if a download could not be taken back; merged downloads cannot be downloaded again (refuted). Marks are not modelled here. |
| C136 | Unsuccessful downloads can be resumed | proved | sum lemmas over the parked files |  |
| C137 | Statistics stay right when a download is taken back | partial | per-file sum lemmas, induction over the files; witnesses | Proved if files parked as not started have no downloaded articles; otherwise articles count twice. Counts of servers for failed files stay (refuted). |
| C138 | Only what is missing is downloaded again | partial | the same, refinement of articles; witness | Proved; but remaining files are offered for download though there are none (refuted). |
| C139 | A file listed twice is downloaded once | proved | position lemmas, invariant of the statistics |  |
| C140 | Rar-volumes are read as written | partial | position lemmas for the reader, induction over the blocks; witnesses | Proved for volumes with a block at the end (format 3: with the number of the volume if another one follows). Without number the successor is forgotten, without the block at the end the volume is refused, and packed sizes near 4 GiB overflow (refuted). |
| C141 | Reading a rar-volume ends | partial | measure of the position; witnesses | Proved if every block has a length (format 3) or sizes of data are below 2^62 (format 5); otherwise the reading may go on forever, and too long numbers are shifted too far (refuted). |
| C142 | Renaming of rar-volumes loses nothing | partial | invariant over renamings, permutations, pigeonhole for the search of a name; witness | Proved for up to 14200 volumes (old names run out then) and names below 1000 bytes. Files may leave their directory: volumes of earlier directories are not forgotten and are completed with those of later ones (refuted). |
| C143 | Sets of rar-volumes are found and named | partial | chains of volumes, induction over sets, grammar of names; witnesses | Proved if no volume belongs to two sets; otherwise only one set gets it. A single archive of format 5 named x.rar is renamed, and numbers in names are cut to 32 bits (refuted). |
| C144 | The results of checks and unpacks are remembered | proved | what is kept by each step, invariant of the queue |  |
| C145 | Renaming by par2-files loses nothing | partial | invariant over renamings, permutations, termination by counting free names; witness | Proved if no file, and no file described, has the ending .bad of damaged par2-files; otherwise a damaged par2-file replaces one put aside before (refuted). |
| C146 | Files get the names described in par2-files | partial | fold invariant over the files met; witness | Proved; but a name that is taken when its file is met and becomes free later stays unused (refuted). |
| C147 | Missing files are noticed when renaming | proved | invariant over the files met |  |
| C148 | Obfuscated par2-files get names that belong together | partial | layout lemmas for the header, injectivity of numbered names; witness | Proved but for packets of 2 GB and more, whose length is cut: files with such a beginning count as par2-files though the packet does not end in the file (refuted). |
| C149 | The first article tells hash and kind of a file | partial | invariant over pieces; witnesses | The hash is proved. The kind is proved for the first attempt if some piece begins after the first 64 bytes. A par2-file that arrives in one piece is not recognised, and the kind seen in a failed attempt is kept (refuted). |
| C150 | Renaming during the download gives the names described and loses nothing | partial | invariant over renamings, permutations; witnesses | Proved if the names wanted by files on the disk are free; otherwise files are overwritten (refuted for shuffled names). Two par2-files in progress may get one name (refuted). |
| C151 | The smallest par2-file of each set is downloaded first, then files are renamed once | partial | first occurrences in any sorted list, invariant over executions; witness | Proved but for one case: if the par2-file with priority is the last to be completed, the renaming is never started (refuted). |
| C152 | The sums for par2-files remain right when the kind of a file becomes known | proved | sum lemmas |  |
| C153 | Cleaning up deletes exactly the files configured | partial | induction over trees; witnesses | Proved; but links are followed, files outside of the directory are deleted, and the message may say that there was nothing to do (refuted). |
| C154 | Moving to the final directory loses nothing | partial | invariant over the entries moved, permutations; witnesses | Proved for files on one device or with room for the copy. Hidden files that could not be moved are deleted with the directory; on another device a full disk is not noticed and directories are not moved (refuted). |
| C155 | Deleting a directory deletes exactly its contents | partial | induction over trees; witness | Proved; but links are followed: the contents of directories outside are deleted (refuted). |
| C156 | Queue-scripts are started for exactly the events they are configured for | partial | induction over the scripts, characterisation of the items; witness | Proved for times before 2038; from then on events for downloaded files are never handled (refuted). |
| C157 | Queue-scripts run one at a time, none is lost, the most urgent first | partial | invariant over executions; witnesses | One at a time and none lost: proved. The last waiting item is started whatever its priority, and an item may wait for ever (refuted). |
| C158 | Commands printed by post-processing scripts take effect, and nothing else does | partial | prefix lemmas, relation line by line; witnesses | Proved for lines that fit into the buffers and downloads whose name does not look like a command. Otherwise the name of the download is executed as a command, the program calls itself endlessly, reads memory behind the text, or cuts values; scripts with a comma in the name are not executed (refuted). |
| C159 | Scan-scripts change what they ask for; new downloads get the parameters of their category | partial | the same, fold lemmas for parameters; witnesses | Proved for lines that fit and messages that do not look like commands. A new category does not bring its choice about unpacking, and the name of a file can act as a command (refuted). |
| C160 | Scripts are told exactly their options and parameters | partial | membership lemmas; witness | The variables are exactly described; but one variable may have two values (refuted). |
| C161 | The program configured for the extension executes the script | partial | first match lemma; witness | Proved for scripts with a dot in the path; otherwise a null pointer is used (refuted). |
| C162 | The password is sent to a news server only when asked for; a connection is good only when the server let the user in | partial | invariant over the history of the connection; witness | Proved for connections newly made; after failed authorization the connection stays open and the next try to connect is told to be good at once (refuted). |
| C163 | A group told to be joined is the group the server has selected on this connection | partial | the same, relation of the selected group; witness | Proved if no connection is opened again after an error; after an error the group is remembered for the new connection though nothing was sent (refuted). |
| C164 | Each request to a news server is one command | partial | the same; witnesses | Proved for names without line ends of at most 1000 bytes; otherwise names bring commands of their own or commands lose their end (refuted). |
| C165 | The remote-control port of the daemon does nothing for a request without the right user and password | partial | layout of the request, strcmp lemmas; witnesses | Proved: nothing is done without the right login. A password of 32 or more bytes locks the own client out, and for one who sends its first bytes the comparison reads behind the structure (refuted). |
| C166 | Commands given to the command-line client arrive at the daemon unchanged | partial | layout lemmas field by field; witnesses | Proved for all commands of the client. A request made by another program with the right password can make the daemon read outside of its memory (refuted). |
| C167 | Lists sent to the command-line client are read as they were written | proved | alignment invariant, sums; induction over the entries |  |
| C168 | The command-line client gets the messages of the log and the states it asks for | partial | filter of consecutive numbers; witnesses | Proved for positive numbers of lines and for identifiers below 2^31. Otherwise the whole log is sent or a negative number announced; the history shows successful scripts as failed (refuted). |
| C169 | Only duplicates with the same main file are used for repair | partial | invariant over the lines of the listing; witnesses | Proved if the own main file is found. While it is searched the size of a volume is used as the expected size, the search may end at a smaller file and then duplicates with other contents are used; for an empty directory memory never set is printed (refuted). |
| C170 | Direct unpack: success means unpacked, and volumes are waited for | partial | invariant over all interleavings, induction over the steps; witnesses | Success, answers and waking are proved for all interleavings. Refuted for some schedules: a volume reported between the look into the directory and the waiting is lost; an archive is unpacked twice; unrar started just after the deletion waits for ever; a null pointer and a closed file are used. |
| C171 | Direct unpack: names of first volumes and unrar's output | partial | characterisation of names, induction over the output; witnesses | Proved for numbers of volumes of up to nine digits, names up to 900 bytes and output without backspaces. Larger numbers are cut to 32 bits; output beginning with a backspace repeats the line before (refuted). |
| C172 | Remote procedures receive the parameters as written | partial | lemmas per form and kind, induction over the written values; witnesses | Proved for all well-formed requests (append in its form since version 13) with texts without two escapes in a row, non-empty distinct post-processing parameters taken undecoded, and rates below 2 GB/s. Refuted otherwise: post-processing parameters are not decoded; adjacent escapes; the identifier behind a shortened append; an encoded ampersand; editqueue by address without the offset; overflow of large rates; XML-texts without a type. |
| C173 | Reading parameters of remote procedures stays inside the request and ends | partial | length decreases with every value; invariant of the rest; witness | Every procedure ends; reading stays inside for XML and addresses always, for JSON if the request ends with a bracket, a brace or a blank. A JSON request breaking off behind a value is read behind its end (refuted). |
| C174 | Items of an RSS feed have the values the feed gives | partial | effect of each element, composition over the elements, induction over the items; witnesses | Proved for texts not split at blanks, titles with something between the quotes, non-empty descriptions without ampersands, enclosures with addresses without entities and lengths other than 0. Refuted otherwise: blanks at pieces of a text are lost (Tom & Jerry); a title behind the last item replaces its title; empty descriptions and enclosures without attributes use a null pointer; a description ending in AT&T is read behind its end; a length of 0 removes the size; attributes with the value first are ignored. |
| C175 | File names from titles and descriptions of feed items | partial | splitting at the found positions, induction over the text; witnesses | Proved for titles whose first quote is followed by another byte than a quote and for descriptions without ampersands. A title ending with its only quote is read behind its end; after empty quotes the following text is taken (refuted). |
| C176 | Command line: lists of ids | partial | tokens of a written list, induction over the pieces; witness | Proved for lists of ids and ranges of ids up to 2147483647, and the refusal of pieces that begin with something else than a digit, a plus sign or white space and of 0. What stands behind a number is dropped without an error (5x7, 1-2-900) (refuted). |
| C177 | Command line: adding files | partial | effect of each setting, induction over the settings, the words left are counted; witnesses | Proved for settings before the file in any order and letter case. Refuted otherwise: a file named like a setting is taken for it; of several files only the first is added, without an error; with a setting behind the file the value of the setting is added instead of the file, because the words are counted in the order getopt made of its copy. |
| C178 | Command line: editing the queue, post-jobs and the history | partial | case analysis over the table of commands, invariants of the scan of switches; witnesses | Proved for all commands of the help text with settings before the command. Refuted: with a setting behind the names the command is for the value of the setting; deleting with parking and sorting are not refused for files, splitting not for groups, the ids are then those of other things. |
| C179 | Command line: pausing, listing, scanning and the other commands | proved | case analysis over the table of commands on top of the invariants of the scan of switches | For pausing, resuming, listing, scanning, shutdown, reload and version, with configuration file and options before the command; the rate, the log and regular expressions of listings are not covered. |
| C180 | Services are run when they are due | partial | invariant over all interleavings of the thread with changes, calls and the clock; witness | Proved for a clock that is not set back. After it is set back by less than the interval of a service the wait is longer than the interval (refuted). |
| C181 | Disk space and required directories | proved | arithmetic of megabytes; invariant over all interleavings, tokens of the option | The temporary pauses are those of WorkState; that downloading and post-processing honour them is covered elsewhere or not at all, see DESIGN.md. |

## Assumptions

`Print Assumptions` for every theorem of the `Properties_*.v` files (746 theorems). "closed" stands for "Closed under the global context": no axiom, neither of this development nor of the standard library.

| theorem | file | assumptions |
|---|---|---|
| C176_ids | Properties_Arg.v | closed |
| C176_refuses | Properties_Arg.v | closed |
| C176_behind_refuted | Properties_Arg.v | closed |
| C177_append | Properties_Arg.v | closed |
| C177_refuses | Properties_Arg.v | closed |
| C177_word_refuted | Properties_Arg.v | closed |
| C177_several_refuted | Properties_Arg.v | closed |
| C177_behind_refuted | Properties_Arg.v | closed |
| C178_edit | Properties_Arg.v | closed |
| C178_move | Properties_Arg.v | closed |
| C178_group_only | Properties_Arg.v | closed |
| C178_unknown | Properties_Arg.v | closed |
| C178_missing | Properties_Arg.v | closed |
| C178_no_id | Properties_Arg.v | closed |
| C178_param | Properties_Arg.v | closed |
| C178_behind_refuted | Properties_Arg.v | closed |
| C178_scope_refuted | Properties_Arg.v | closed |
| C179_commands | Properties_Arg.v | closed |
| C179_too_many | Properties_Arg.v | closed |
| C179_bare | Properties_Arg.v | closed |
| C179_unknown | Properties_Arg.v | closed |
| C179_server | Properties_Arg.v | closed |
| C165_login | Properties_Bin.v | closed |
| C165_wrong | Properties_Bin.v | closed |
| C165_long_refuted | Properties_Bin.v | closed |
| C165_outside_refuted | Properties_Bin.v | closed |
| C166_round_trip | Properties_Bin.v | closed |
| C166_url_refuted | Properties_Bin.v | closed |
| C166_edit_refuted | Properties_Bin.v | closed |
| C167_size | Properties_Bin.v | closed |
| C167_list_size | Properties_Bin.v | closed |
| C167_read | Properties_Bin.v | closed |
| C167_list | Properties_Bin.v | closed |
| C168_last | Properties_Bin.v | closed |
| C168_from_partial | Properties_Bin.v | closed |
| C168_from_refuted | Properties_Bin.v | closed |
| C168_negative_refuted | Properties_Bin.v | closed |
| C168_scripts_refuted | Properties_Bin.v | closed |
| C41_fixed | Properties_Buf.v | closed |
| C41_growing_partial | Properties_Buf.v | closed |
| C41_replace_all_partial | Properties_Buf.v | closed |
| C41_builder | Properties_Buf.v | closed |
| C41_replace_overrun_refuted | Properties_Buf.v | closed |
| C41_replace_empty_refuted | Properties_Buf.v | closed |
| C41_zero_length_refuted | Properties_Buf.v | closed |
| C153_exact | Properties_Clean.v | closed |
| C153_status | Properties_Clean.v | closed |
| C153_outside_refuted | Properties_Clean.v | closed |
| C153_message_refuted | Properties_Clean.v | closed |
| C154_moved | Properties_Clean.v | closed |
| C154_not_made | Properties_Clean.v | closed |
| C154_one_device | Properties_Clean.v | closed |
| C154_hidden_refuted | Properties_Clean.v | closed |
| C154_full_disk_refuted | Properties_Clean.v | closed |
| C154_directories_refuted | Properties_Clean.v | closed |
| C155_deleted | Properties_Clean.v | closed |
| C155_whole | Properties_Clean.v | closed |
| C155_outside_refuted | Properties_Clean.v | closed |
| C06_xml_encode_standard | Properties_Codec.v | closed |
| C06_xml_encode_any | Properties_Codec.v | closed |
| C06_xml_roundtrip_partial | Properties_Codec.v | closed |
| C06_xml_roundtrip_refuted | Properties_Codec.v | closed |
| C07_json_encode_standard | Properties_Codec.v | closed |
| C07_json_encode_any | Properties_Codec.v | closed |
| C07_json_lossless_refuted | Properties_Codec.v | closed |
| C07_json_roundtrip_partial | Properties_Codec.v | closed |
| C07_json_roundtrip_refuted | Properties_Codec.v | closed |
| C08_url_roundtrip_partial | Properties_Codec.v | closed |
| C08_url_roundtrip_refuted | Properties_Codec.v | closed |
| C08_url_no_blank | Properties_Codec.v | closed |
| C08_url_printable_refuted | Properties_Codec.v | closed |
| C09_no_write_behind | Properties_Codec.v | closed |
| C09_inplace_is_pure | Properties_Codec.v | closed |
| C09_unquote_safe | Properties_Codec.v | closed |
| C09_url_safe_partial | Properties_Codec.v | closed |
| C09_json_safe_partial | Properties_Codec.v | closed |
| C09_xml_safe_partial | Properties_Codec.v | closed |
| C09_entities_safe_partial | Properties_Codec.v | closed |
| C09_over_read_refuted | Properties_Codec.v | closed |
| C10_json_string_partial | Properties_Codec.v | closed |
| C10_json_string_refuted | Properties_Codec.v | closed |
| C10_json_plain | Properties_Codec.v | closed |
| C11_base64_roundtrip | Properties_Codec.v | closed |
| C11_base64_length | Properties_Codec.v | closed |
| C15_timegm_epoch | Properties_Codec.v | closed |
| C15_timegm_next_day | Properties_Codec.v | closed |
| C15_timegm_injective | Properties_Codec.v | closed |
| C15_timegm_onto | Properties_Codec.v | closed |
| C15_month_carry | Properties_Codec.v | closed |
| C15_day_carry | Properties_Codec.v | closed |
| C16_split_join | Properties_Codec.v | closed |
| C16_join_split | Properties_Codec.v | closed |
| C16_halves_in_range | Properties_Codec.v | closed |
| C52_encoders_fit | Properties_Codec.v | closed |
| C53_latin1 | Properties_Codec.v | closed |
| C91_stream | Properties_Conn.v | closed |
| C91_pieces | Properties_Conn.v | closed |
| C91_download | Properties_Conn.v | closed |
| C91_send | Properties_Conn.v | closed |
| C91_write_line_refuted | Properties_Conn.v | closed |
| C149_hash | Properties_DRen.v | closed |
| C149_par_partial | Properties_DRen.v | closed |
| C149_one_piece_refuted | Properties_DRen.v | closed |
| C149_again_refuted | Properties_DRen.v | closed |
| C150_names | Properties_DRen.v | closed |
| C150_on_disk | Properties_DRen.v | closed |
| C150_disk_partial | Properties_DRen.v | closed |
| C150_disk_refuted | Properties_DRen.v | closed |
| C150_distinct_refuted | Properties_DRen.v | closed |
| C151_choice | Properties_DRen.v | closed |
| C151_start | Properties_DRen.v | closed |
| C151_once | Properties_DRen.v | closed |
| C151_late_refuted | Properties_DRen.v | closed |
| C152_sums | Properties_DRen.v | closed |
| C152_file | Properties_DRen.v | closed |
| C05_accepted_iff | Properties_Decoder.v | closed |
| C05_written_is_decoded_refuted | Properties_Decoder.v | closed |
| C48_decoder_chunk_independent | Properties_Decoder.v | closed |
| C48_article_roundtrip | Properties_Decoder.v | closed |
| C48_single_part_refuted | Properties_Decoder.v | closed |
| C48_nul_byte_refuted | Properties_Decoder.v | closed |
| C49_retry_refuted | Properties_Decoder.v | closed |
| C49_clear_partial | Properties_Decoder.v | closed |
| C49_retry_partial | Properties_Decoder.v | closed |
| C50_uudecode_refuted | Properties_Decoder.v | closed |
| C51_raw_eof_refuted | Properties_Decoder.v | closed |
| C51_raw_eof_sound | Properties_Decoder.v | closed |
| C51_raw_eof_partial | Properties_Decoder.v | closed |
| C25_write_in_bounds | Properties_Disk.v | closed |
| C25_read_resync | Properties_Disk.v | closed |
| C25_round_trip_partial | Properties_Disk.v | closed |
| C25_overflow_refuted | Properties_Disk.v | closed |
| C25_lost_character_refuted | Properties_Disk.v | closed |
| C25_line_break_refuted | Properties_Disk.v | closed |
| C23_killed | Properties_Disk.v | closed |
| C23_histories | Properties_Disk.v | closed |
| C23_completed | Properties_Disk.v | closed |
| C23_first_save_refuted | Properties_Disk.v | closed |
| C23_discard_refuted | Properties_Disk.v | closed |
| C23_plain_refuted | Properties_Disk.v | closed |
| C75_fits_partial | Properties_Disk.v | closed |
| C75_disk_full_refuted | Properties_Disk.v | closed |
| C75_disk_full_lost | Properties_Disk.v | closed |
| C24_entry_partial | Properties_Disk.v | closed |
| C24_queue_partial | Properties_Disk.v | closed |
| C24_history_partial | Properties_Disk.v | closed |
| C24_dupe_mode_refuted | Properties_Disk.v | closed |
| C24_stage_refuted | Properties_Disk.v | closed |
| C24_time_refuted | Properties_Disk.v | closed |
| C76_restart_partial | Properties_Disk.v | closed |
| C76_killed_partial | Properties_Disk.v | closed |
| C76_lost_refuted | Properties_Disk.v | closed |
| C22_twice_refuted | Properties_Disk.v | closed |
| C76_stale_progress_refuted | Properties_Disk.v | closed |
| C76_first_progress_refuted | Properties_Disk.v | closed |
| C76_wiped_refuted | Properties_Disk.v | closed |
| C77_resumed | Properties_Disk.v | closed |
| C77_scripts_refuted | Properties_Disk.v | closed |
| C77_moving_refuted | Properties_Disk.v | closed |
| C78_round_trip_partial | Properties_Disk.v | closed |
| C78_never_stuck | Properties_Disk.v | closed |
| C78_large_offset_refuted | Properties_Disk.v | closed |
| C79_round_trip_partial | Properties_Disk.v | closed |
| C79_time_refuted | Properties_Disk.v | closed |
| C169_near | Properties_Dm.v | closed |
| C169_archive | Properties_Dm.v | closed |
| C169_plain | Properties_Dm.v | closed |
| C169_sources | Properties_Dm.v | closed |
| C169_volume_refuted | Properties_Dm.v | closed |
| C169_empty_refuted | Properties_Dm.v | closed |
| C170_success | Properties_Du.v | closed |
| C170_all | Properties_Du.v | closed |
| C170_only | Properties_Du.v | closed |
| C170_answers | Properties_Du.v | closed |
| C170_wakes | Properties_Du.v | closed |
| C170_gives_up | Properties_Du.v | closed |
| C170_stopped | Properties_Du.v | closed |
| C170_lost_refuted | Properties_Du.v | closed |
| C170_twice_refuted | Properties_Du.v | closed |
| C170_stuck_refuted | Properties_Du.v | closed |
| C170_null_refuted | Properties_Du.v | closed |
| C170_closed_refuted | Properties_Du.v | closed |
| C171_main | Properties_Du.v | closed |
| C171_archive | Properties_Du.v | closed |
| C171_line | Properties_Du.v | closed |
| C171_question | Properties_Du.v | closed |
| C171_number_refuted | Properties_Du.v | closed |
| C171_again_refuted | Properties_Du.v | closed |
| C32_queue | Properties_Dupe.v | closed |
| C32_history_partial | Properties_Dupe.v | closed |
| C32_hint_refuted | Properties_Dupe.v | closed |
| C89_decision | Properties_Dupe.v | closed |
| C89_key | Properties_Dupe.v | closed |
| C89_queue | Properties_Dupe.v | closed |
| C89_defined | Properties_Dupe.v | closed |
| C89_refused_refuted | Properties_Dupe.v | closed |
| C31_best_partial | Properties_Dupe.v | closed |
| C31_failed | Properties_Dupe.v | closed |
| C31_url_refuted | Properties_Dupe.v | closed |
| C90_hide | Properties_Dupe.v | closed |
| C90_cleanup | Properties_Dupe.v | closed |
| C33_formula | Properties_Feed.v | closed |
| C33_accept_filter | Properties_Feed.v | closed |
| C33_negation | Properties_Feed.v | closed |
| C33_total | Properties_Feed.v | closed |
| C33_negated_group_refuted | Properties_Feed.v | closed |
| C34_first_decisive_rule | Properties_Feed.v | closed |
| C34_later_rules | Properties_Feed.v | closed |
| C34_options | Properties_Feed.v | closed |
| C68_separators | Properties_Feed.v | closed |
| C68_text_term | Properties_Feed.v | closed |
| C69_size_term | Properties_Feed.v | closed |
| C69_age_term | Properties_Feed.v | closed |
| C70_references_partial | Properties_Feed.v | closed |
| C70_inside_partial | Properties_Feed.v | closed |
| C70_word_partial | Properties_Feed.v | closed |
| C70_expand | Properties_Feed.v | closed |
| C70_empty_group_refuted | Properties_Feed.v | closed |
| C71_reads_inside_partial | Properties_Feed.v | closed |
| C71_reads_inside_refuted | Properties_Feed.v | closed |
| C72_queued_once | Properties_Feed.v | closed |
| C72_new_urls | Properties_Feed.v | closed |
| C72_listed_kept | Properties_Feed.v | closed |
| C72_cleanup | Properties_Feed.v | closed |
| C72_zero_history_refuted | Properties_Feed.v | closed |
| C73_backoff | Properties_Feed.v | closed |
| C73_success | Properties_Feed.v | closed |
| C73_due | Properties_Feed.v | closed |
| C174_items | Properties_Ff.v | closed |
| C174_count | Properties_Ff.v | closed |
| C174_blanks_refuted | Properties_Ff.v | closed |
| C174_behind_refuted | Properties_Ff.v | closed |
| C174_null_refuted | Properties_Ff.v | closed |
| C174_ampersand_refuted | Properties_Ff.v | closed |
| C174_size_refuted | Properties_Ff.v | closed |
| C175_title | Properties_Ff.v | closed |
| C175_description | Properties_Ff.v | closed |
| C175_quote_refuted | Properties_Ff.v | closed |
| C175_empty_refuted | Properties_Ff.v | closed |
| C134_kept_as_long_as_configured | Properties_Hist.v | closed |
| C134_runs | Properties_Hist.v | closed |
| C134_long_refuted | Properties_Hist.v | closed |
| C134_failed_refuted | Properties_Hist.v | closed |
| C135_others | Properties_Hist.v | closed |
| C135_none_lost | Properties_Hist.v | closed |
| C135_settings | Properties_Hist.v | closed |
| C135_parameter | Properties_Hist.v | closed |
| C135_taken_back | Properties_Hist.v | closed |
| C135_deleted | Properties_Hist.v | closed |
| C135_refused | Properties_Hist.v | closed |
| C135_answer_refuted | Properties_Hist.v | closed |
| C135_silent_refuted | Properties_Hist.v | closed |
| C135_merged_refuted | Properties_Hist.v | closed |
| C136_kept | Properties_Hist.v | closed |
| C136_failed | Properties_Hist.v | closed |
| C136_sums | Properties_Hist.v | closed |
| C137_sums_after_return_partial | Properties_Hist.v | closed |
| C137_status | Properties_Hist.v | closed |
| C138_only_what_is_missing | Properties_Hist.v | closed |
| C137_paused_refuted | Properties_Hist.v | closed |
| C137_servers_refuted | Properties_Hist.v | closed |
| C138_remaining_refuted | Properties_Hist.v | closed |
| C138_from_scratch | Properties_Hist.v | closed |
| C139_twins | Properties_Hist.v | closed |
| C44_safe | Properties_Name.v | closed |
| C44_unchanged | Properties_Name.v | closed |
| C44_rest | Properties_Name.v | closed |
| C44_nice | Properties_Name.v | closed |
| C44_empty_refuted | Properties_Name.v | closed |
| C85_final_partial | Properties_Name.v | closed |
| C85_inter | Properties_Name.v | closed |
| C85_header_refuted | Properties_Name.v | closed |
| C85_empty_refuted | Properties_Name.v | closed |
| C85_split_refuted | Properties_Name.v | closed |
| C86_unique | Properties_Name.v | closed |
| C86_bak | Properties_Name.v | closed |
| C87_taken_partial | Properties_Name.v | closed |
| C87_taken_finally | Properties_Name.v | closed |
| C87_taken_in_time | Properties_Name.v | closed |
| C87_changed_refuted | Properties_Name.v | closed |
| C21_next_partial | Properties_Next.v | closed |
| C21_once | Properties_Next.v | closed |
| C21_extra_refuted | Properties_Next.v | closed |
| C21_paused_refuted | Properties_Next.v | closed |
| C88_url | Properties_Next.v | closed |
| C162_asked | Properties_Nntp.v | closed |
| C162_connected | Properties_Nntp.v | closed |
| C162_request | Properties_Nntp.v | closed |
| C162_refused_refuted | Properties_Nntp.v | closed |
| C163_group_partial | Properties_Nntp.v | closed |
| C163_groups_partial | Properties_Nntp.v | closed |
| C163_lost_refuted | Properties_Nntp.v | closed |
| C164_commands | Properties_Nntp.v | closed |
| C164_one_line_partial | Properties_Nntp.v | closed |
| C164_injected_refuted | Properties_Nntp.v | closed |
| C164_cut_refuted | Properties_Nntp.v | closed |
| C97_articles | Properties_Nzb.v | closed |
| C97_download | Properties_Nzb.v | closed |
| C98_sizes_partial | Properties_Nzb.v | closed |
| C98_added | Properties_Nzb.v | closed |
| C98_negative_refuted | Properties_Nzb.v | closed |
| C98_huge_refuted | Properties_Nzb.v | closed |
| C99_defined_partial | Properties_Nzb.v | closed |
| C99_tame | Properties_Nzb.v | closed |
| C99_nested_refuted | Properties_Nzb.v | closed |
| C99_empty_segment_refuted | Properties_Nzb.v | closed |
| C99_inner_segment_refuted | Properties_Nzb.v | closed |
| C99_empty_file_refuted | Properties_Nzb.v | closed |
| C100_quoted_partial | Properties_Nzb.v | closed |
| C100_words_partial | Properties_Nzb.v | closed |
| C100_last_word_partial | Properties_Nzb.v | closed |
| C100_some_partial | Properties_Nzb.v | closed |
| C100_core | Properties_Nzb.v | closed |
| C100_odd_refuted | Properties_Nzb.v | closed |
| C100_long_refuted | Properties_Nzb.v | closed |
| C100_wrong_refuted | Properties_Nzb.v | closed |
| C101_apart | Properties_Nzb.v | closed |
| C101_quoted | Properties_Nzb.v | closed |
| C101_valid_refuted | Properties_Nzb.v | closed |
| C101_empty_refuted | Properties_Nzb.v | closed |
| C102_order_partial | Properties_Nzb.v | closed |
| C102_content_partial | Properties_Nzb.v | closed |
| C102_function | Properties_Nzb.v | closed |
| C102_same_name_refuted | Properties_Nzb.v | closed |
| C102_half_refuted | Properties_Nzb.v | closed |
| C103_password_partial | Properties_Nzb.v | closed |
| C103_none | Properties_Nzb.v | closed |
| C103_taken_partial | Properties_Nzb.v | closed |
| C103_far_refuted | Properties_Nzb.v | closed |
| C103_numeric_refuted | Properties_Nzb.v | closed |
| C124_setting | Properties_Options.v | closed |
| C124_last | Properties_Options.v | closed |
| C124_cmdline | Properties_Options.v | closed |
| C124_fixed | Properties_Options.v | closed |
| C124_crash_refuted | Properties_Options.v | closed |
| C125_references | Properties_Options.v | closed |
| C125_none_left | Properties_Options.v | closed |
| C125_order_refuted | Properties_Options.v | closed |
| C125_loop_refuted | Properties_Options.v | closed |
| C125_defaults_refuted | Properties_Options.v | closed |
| C126_number | Properties_Options.v | closed |
| C126_no_number | Properties_Options.v | closed |
| C126_word | Properties_Options.v | closed |
| C126_no_word | Properties_Options.v | closed |
| C126_tables | Properties_Options.v | closed |
| C126_meaning | Properties_Options.v | closed |
| C126_default | Properties_Options.v | closed |
| C126_silent_refuted | Properties_Options.v | closed |
| C126_bounds_refuted | Properties_Options.v | closed |
| C127_lines | Properties_Options.v | closed |
| C127_hang_refuted | Properties_Options.v | closed |
| C127_cut_refuted | Properties_Options.v | closed |
| C128_times | Properties_Options.v | closed |
| C128_sane | Properties_Options.v | closed |
| C128_days | Properties_Options.v | closed |
| C128_bad_days | Properties_Options.v | closed |
| C128_incomplete_refuted | Properties_Options.v | closed |
| C128_minute_refuted | Properties_Options.v | closed |
| C129_servers | Properties_Options.v | closed |
| C129_commands | Properties_Options.v | closed |
| C129_tasks | Properties_Options.v | closed |
| C129_command_refuted | Properties_Options.v | closed |
| C129_ip_refuted | Properties_Options.v | closed |
| C130_names | Properties_Options.v | closed |
| C130_values | Properties_Options.v | closed |
| C130_ends | Properties_Options.v | closed |
| C130_decode | Properties_Options.v | closed |
| C130_buffer | Properties_Options.v | closed |
| C130_modern | Properties_Options.v | closed |
| C130_scripts | Properties_Options.v | closed |
| C130_case_refuted | Properties_Options.v | closed |
| C131_category | Properties_Options.v | closed |
| C132_saved | Properties_Options.v | closed |
| C132_glued_refuted | Properties_Options.v | closed |
| C132_inject_refuted | Properties_Options.v | closed |
| C132_blanks_refuted | Properties_Options.v | closed |
| C133_restricted | Properties_Options.v | closed |
| C133_shown | Properties_Options.v | closed |
| C133_long_refuted | Properties_Options.v | closed |
| C110_request_partial | Properties_Par.v | closed |
| C110_waits_partial | Properties_Par.v | closed |
| C110_defined_partial | Properties_Par.v | closed |
| C110_own_refuted | Properties_Par.v | closed |
| C110_least_refuted | Properties_Par.v | closed |
| C111_name_partial | Properties_Par.v | closed |
| C111_subject_partial | Properties_Par.v | closed |
| C111_other | Properties_Par.v | closed |
| C111_together | Properties_Par.v | closed |
| C111_unique | Properties_Par.v | closed |
| C111_main_refuted | Properties_Par.v | closed |
| C112_sets | Properties_Par.v | closed |
| C112_once | Properties_Par.v | closed |
| C113_progress_partial | Properties_Par.v | closed |
| C113_rest | Properties_Par.v | closed |
| C113_loaded | Properties_Par.v | closed |
| C113_giveup | Properties_Par.v | closed |
| C113_lost_refuted | Properties_Par.v | closed |
| C39_mul | Properties_Par2.v | closed |
| C39_mul_only | Properties_Par2.v | closed |
| C39_assoc | Properties_Par2.v | closed |
| C39_comm | Properties_Par2.v | closed |
| C39_distr | Properties_Par2.v | closed |
| C39_div | Properties_Par2.v | closed |
| C39_div_mul | Properties_Par2.v | closed |
| C39_pow | Properties_Par2.v | closed |
| C39_no_zero_divisors | Properties_Par2.v | closed |
| C39_table_indices | Properties_Par2.v | closed |
| C39_power_assign_refuted | Properties_Par2.v | closed |
| C40_repair | Properties_Par2.v | closed |
| C40_process | Properties_Par2.v | closed |
| C40_create | Properties_Par2.v | closed |
| C40_bases | Properties_Par2.v | closed |
| C40_block_limit | Properties_Par2.v | closed |
| C74_consecutive_partial | Properties_Par2.v | closed |
| C74_one_block | Properties_Par2.v | closed |
| C74_enough_blocks_refuted | Properties_Par2.v | closed |
| C74_row_order_refuted | Properties_Par2.v | closed |
| C145_ends | Properties_ParRen.v | closed |
| C145_kept | Properties_ParRen.v | closed |
| C145_kept_refuted | Properties_ParRen.v | closed |
| C146_fate | Properties_ParRen.v | closed |
| C146_placed | Properties_ParRen.v | closed |
| C146_read | Properties_ParRen.v | closed |
| C146_order_refuted | Properties_ParRen.v | closed |
| C147_missing | Properties_ParRen.v | closed |
| C148_packet | Properties_ParRen.v | closed |
| C148_only | Properties_ParRen.v | closed |
| C148_only_refuted | Properties_ParRen.v | closed |
| C148_needed | Properties_ParRen.v | closed |
| C148_renamed | Properties_ParRen.v | closed |
| C148_first_free | Properties_ParRen.v | closed |
| C27_defined | Properties_Pool.v | closed |
| C27_exclusive | Properties_Pool.v | closed |
| C27_limit | Properties_Pool.v | closed |
| C27_options | Properties_Pool.v | closed |
| C27_request | Properties_Pool.v | closed |
| C27_available | Properties_Pool.v | closed |
| C27_available_refuted | Properties_Pool.v | closed |
| C80_levels | Properties_Pool.v | closed |
| C80_main_servers_refuted | Properties_Pool.v | closed |
| C28_failed_partial | Properties_Pool.v | closed |
| C28_fatal_refuted | Properties_Pool.v | closed |
| C28_bounded | Properties_Pool.v | closed |
| C28_defined | Properties_Pool.v | closed |
| C81_retries_partial | Properties_Pool.v | closed |
| C81_retries_refuted | Properties_Pool.v | closed |
| C81_retention | Properties_Pool.v | closed |
| C114_jobs_bounded | Properties_Post.v | closed |
| C115_started_when_allowed | Properties_Post.v | closed |
| C115_paused_only_forced | Properties_Post.v | closed |
| C116_limits | Properties_Post.v | closed |
| C117_highest_priority_first | Properties_Post.v | closed |
| C117_possible_jobs | Properties_Post.v | closed |
| C117_loop_ends | Properties_Post.v | closed |
| C117_waits_only_if_full | Properties_Post.v | closed |
| C117_idle_queue_is_done | Properties_Post.v | closed |
| C118_jobs_counted | Properties_Post.v | closed |
| C119_script_statuses | Properties_Post.v | closed |
| C119_requested_check_done_refuted | Properties_Post.v | closed |
| C120_no_lost_jobs | Properties_Post.v | closed |
| C120_deletion_safe_refuted | Properties_Post.v | closed |
| C144_checked | Properties_Post.v | closed |
| C144_no_second_try | Properties_Post.v | closed |
| C156_event | Properties_QScr.v | closed |
| C156_unique | Properties_QScr.v | closed |
| C156_none | Properties_QScr.v | closed |
| C156_2038_refuted | Properties_QScr.v | closed |
| C157_one | Properties_QScr.v | closed |
| C157_next | Properties_QScr.v | closed |
| C157_seen | Properties_QScr.v | closed |
| C157_all_run | Properties_QScr.v | closed |
| C157_order_refuted | Properties_QScr.v | closed |
| C157_starved_refuted | Properties_QScr.v | closed |
| C19_move_up | Properties_QueueEdit.v | closed |
| C19_move_down | Properties_QueueEdit.v | closed |
| C19_permutation | Properties_QueueEdit.v | closed |
| C19_move_top | Properties_QueueEdit.v | closed |
| C19_move_bottom | Properties_QueueEdit.v | closed |
| C19_move_before | Properties_QueueEdit.v | closed |
| C19_move_after | Properties_QueueEdit.v | closed |
| C19_move_to_selected | Properties_QueueEdit.v | closed |
| C19_move_to_unknown | Properties_QueueEdit.v | closed |
| C19_offset_overflow_refuted | Properties_QueueEdit.v | closed |
| C20_order_meaning | Properties_QueueEdit.v | closed |
| C20_strict_weak | Properties_QueueEdit.v | closed |
| C20_sort_all | Properties_QueueEdit.v | closed |
| C20_sort_selection | Properties_QueueEdit.v | closed |
| C20_unique | Properties_QueueEdit.v | closed |
| C54_stale_selection_refuted | Properties_QueueEdit.v | closed |
| C55_file_order_refuted | Properties_QueueEdit.v | closed |
| C55_not_strict_weak_refuted | Properties_QueueEdit.v | closed |
| C56_pause_all | Properties_QueueEdit.v | closed |
| C56_pause_extra_with_index | Properties_QueueEdit.v | closed |
| C56_pause_extra_smallest | Properties_QueueEdit.v | closed |
| C57_reorder | Properties_QueueEdit.v | closed |
| C57_duplicate_refuted | Properties_QueueEdit.v | closed |
| C140_rar3_partial | Properties_Rar.v | closed |
| C140_rar3_single | Properties_Rar.v | closed |
| C140_rar5 | Properties_Rar.v | closed |
| C140_other_files | Properties_Rar.v | closed |
| C140_next_refuted | Properties_Rar.v | closed |
| C140_no_end_refuted | Properties_Rar.v | closed |
| C140_size_refuted | Properties_Rar.v | closed |
| C141_rar3_partial | Properties_Rar.v | closed |
| C141_rar5_partial | Properties_Rar.v | closed |
| C141_rar3_endless_refuted | Properties_Rar.v | closed |
| C141_rar5_endless_refuted | Properties_Rar.v | closed |
| C141_rar5_undefined_refuted | Properties_Rar.v | closed |
| C142_nothing_lost | Properties_RarSet.v | closed |
| C142_all_directories | Properties_RarSet.v | closed |
| C142_directory_refuted | Properties_RarSet.v | closed |
| C143_sets_are_sets | Properties_RarSet.v | closed |
| C143_sets_end | Properties_RarSet.v | closed |
| C143_sets_found | Properties_RarSet.v | closed |
| C143_same_name | Properties_RarSet.v | closed |
| C143_renamed | Properties_RarSet.v | closed |
| C143_first_free_name | Properties_RarSet.v | closed |
| C143_well_named_stays | Properties_RarSet.v | closed |
| C143_shared_refuted | Properties_RarSet.v | closed |
| C143_single_refuted | Properties_RarSet.v | closed |
| C143_number_refuted | Properties_RarSet.v | closed |
| C82_rfc822_partial | Properties_Rfc822.v | closed |
| C82_half_hour_east_refuted | Properties_Rfc822.v | closed |
| C172_append | Properties_Rp.v | closed |
| C172_edit | Properties_Rp.v | closed |
| C172_rate | Properties_Rp.v | closed |
| C172_resume | Properties_Rp.v | closed |
| C172_log | Properties_Rp.v | closed |
| C172_servers | Properties_Rp.v | closed |
| C172_edit_refuses | Properties_Rp.v | closed |
| C172_log_refuses | Properties_Rp.v | closed |
| C172_negative | Properties_Rp.v | closed |
| C172_missing | Properties_Rp.v | closed |
| C172_mode_refuses | Properties_Rp.v | closed |
| C172_password_refuted | Properties_Rp.v | closed |
| C172_escapes_refuted | Properties_Rp.v | closed |
| C172_id_refuted | Properties_Rp.v | closed |
| C172_ampersand_refuted | Properties_Rp.v | closed |
| C172_offset_refuted | Properties_Rp.v | closed |
| C172_rate_refuted | Properties_Rp.v | closed |
| C172_untyped_refuted | Properties_Rp.v | closed |
| C173_inside | Properties_Rp.v | closed |
| C173_ends | Properties_Rp.v | closed |
| C173_behind_refuted | Properties_Rp.v | closed |
| C37_due_times | Properties_Sched.v | closed |
| C37_once_partial | Properties_Sched.v | closed |
| C37_states | Properties_Sched.v | closed |
| C37_startup | Properties_Sched.v | closed |
| C37_zone_refuted | Properties_Sched.v | closed |
| C64_replay | Properties_Sched.v | closed |
| C64_order | Properties_Sched.v | closed |
| C65_wakeup | Properties_Sched.v | closed |
| C38_newest_partial | Properties_Sched.v | closed |
| C38_ids | Properties_Sched.v | closed |
| C38_startup_refuted | Properties_Sched.v | closed |
| C38_renumber_refuted | Properties_Sched.v | closed |
| C66_from | Properties_Sched.v | closed |
| C66_newest | Properties_Sched.v | closed |
| C158_commands | Properties_Scr.v | closed |
| C158_determined | Properties_Scr.v | closed |
| C158_injected_refuted | Properties_Scr.v | closed |
| C158_endless_refuted | Properties_Scr.v | closed |
| C158_undefined_refuted | Properties_Scr.v | closed |
| C158_cut_refuted | Properties_Scr.v | closed |
| C158_assigned | Properties_Scr.v | closed |
| C158_comma_refuted | Properties_Scr.v | closed |
| C159_commands | Properties_Scr.v | closed |
| C159_parameters | Properties_Scr.v | closed |
| C159_category | Properties_Scr.v | closed |
| C159_unpack_refuted | Properties_Scr.v | closed |
| C159_injected_refuted | Properties_Scr.v | closed |
| C160_environment | Properties_Scr.v | closed |
| C160_ambiguous_refuted | Properties_Scr.v | closed |
| C161_override | Properties_Scr.v | closed |
| C161_others | Properties_Scr.v | closed |
| C161_null_refuted | Properties_Scr.v | closed |
| C17_statistics_partial | Properties_Stats.v | closed |
| C17_statistics_any_partial | Properties_Stats.v | closed |
| C17_recount | Properties_Stats.v | closed |
| C17_deleting_refuted | Properties_Stats.v | closed |
| C17_lost_refuted | Properties_Stats.v | closed |
| C17_recount_servers_refuted | Properties_Stats.v | closed |
| C58_completed_file_discarded_refuted | Properties_Stats.v | closed |
| C58_not_without_renaming | Properties_Stats.v | closed |
| C18_merge_partial | Properties_Stats.v | closed |
| C18_merge_servers | Properties_Stats.v | closed |
| C18_merge_extra_refuted | Properties_Stats.v | closed |
| C18_split_adds_up_partial | Properties_Stats.v | closed |
| C18_split_sums_partial | Properties_Stats.v | closed |
| C18_split_paused_refuted | Properties_Stats.v | closed |
| C18_split_missed_refuted | Properties_Stats.v | closed |
| C18_split_extra_refuted | Properties_Stats.v | closed |
| C59_split_moves_selection | Properties_Stats.v | closed |
| C59_split_foreign_refuted | Properties_Stats.v | closed |
| C42_last_assignment | Properties_Stats.v | closed |
| C42_others_unaffected | Properties_Stats.v | closed |
| C42_cases | Properties_Stats.v | closed |
| C42_names_distinct | Properties_Stats.v | closed |
| C42_values_nonempty | Properties_Stats.v | closed |
| C42_copy | Properties_Stats.v | closed |
| C43_pointwise | Properties_Stats.v | closed |
| C43_one_entry | Properties_Stats.v | closed |
| C43_set | Properties_Stats.v | closed |
| C60_total_status | Properties_Stats.v | closed |
| C22_unique_partial | Properties_Status.v | closed |
| C26_health_partial | Properties_Status.v | closed |
| C26_health_decreases | Properties_Status.v | closed |
| C26_critical | Properties_Status.v | closed |
| C26_par_failed_refuted | Properties_Status.v | closed |
| C83_repairable_partial | Properties_Status.v | closed |
| C83_unrepairable_partial | Properties_Status.v | closed |
| C83_par_failed_refuted | Properties_Status.v | closed |
| C47_status | Properties_Status.v | closed |
| C47_url | Properties_Status.v | closed |
| C84_exact | Properties_Status.v | closed |
| C84_success | Properties_Status.v | closed |
| C84_failure_partial | Properties_Status.v | closed |
| C84_move_refuted | Properties_Status.v | closed |
| C84_health_refuted | Properties_Status.v | closed |
| C180_wait | Properties_Svc.v | closed |
| C180_interval | Properties_Svc.v | closed |
| C180_wakes | Properties_Svc.v | closed |
| C180_check | Properties_Svc.v | closed |
| C180_back_refuted | Properties_Svc.v | closed |
| C181_disk | Properties_Svc.v | closed |
| C181_required | Properties_Svc.v | closed |
| C181_released | Properties_Svc.v | closed |
| C12_match_iff | Properties_Text.v | closed |
| C12_match_iff_strict | Properties_Text.v | closed |
| C12_hash_refuted | Properties_Text.v | closed |
| C12_positions_partial | Properties_Text.v | closed |
| C12_positions_refuted | Properties_Text.v | closed |
| C13_tokens | Properties_Text.v | closed |
| C13_fields | Properties_Text.v | closed |
| C13_trim_unique | Properties_Text.v | closed |
| C13_no_separator | Properties_Text.v | closed |
| C14_split_partial | Properties_Text.v | closed |
| C14_buffer | Properties_Text.v | closed |
| C14_empty_argument_refuted | Properties_Text.v | closed |
| C14_long_argument_refuted | Properties_Text.v | closed |
| C121_success_is_real | Properties_Unpack.v | closed |
| C121_success_is_seen | Properties_Unpack.v | closed |
| C121_defined | Properties_Unpack.v | closed |
| C121_nothing_found | Properties_Unpack.v | closed |
| C121_failure | Properties_Unpack.v | closed |
| C121_reads_inside_refuted | Properties_Unpack.v | closed |
| C122_in_order | Properties_Unpack.v | closed |
| C122_all_tried | Properties_Unpack.v | closed |
| C122_file_partial | Properties_Unpack.v | closed |
| C122_last_line_partial | Properties_Unpack.v | closed |
| C122_long_refuted | Properties_Unpack.v | closed |
| C123_joined_is_complete_partial | Properties_Unpack.v | closed |
| C123_complete_is_joined_partial | Properties_Unpack.v | closed |
| C123_two_sets_refuted | Properties_Unpack.v | closed |
| C123_two_complete_refuted | Properties_Unpack.v | closed |
| C123_single_refuted | Properties_Unpack.v | closed |
| C35_total | Properties_Volume.v | closed |
| C35_days_partial | Properties_Volume.v | closed |
| C35_days_refuted | Properties_Volume.v | closed |
| C35_clock_refuted | Properties_Volume.v | closed |
| C61_rings_partial | Properties_Volume.v | closed |
| C61_minutes_refuted | Properties_Volume.v | closed |
| C36_usage_partial | Properties_Volume.v | closed |
| C36_reports_partial | Properties_Volume.v | closed |
| C36_fault | Properties_Volume.v | closed |
| C36_fault_refuted | Properties_Volume.v | closed |
| C36_late_refuted | Properties_Volume.v | closed |
| C62_periods | Properties_Volume.v | closed |
| C63_speed_partial | Properties_Volume.v | closed |
| C63_backwards_refuted | Properties_Volume.v | closed |
| C67_servers | Properties_Volume.v | closed |
| C45_check | Properties_Web.v | closed |
| C45_served | Properties_Web.v | closed |
| C45_login | Properties_Web.v | closed |
| C46_inside_partial | Properties_Web.v | closed |
| C46_long_refuted | Properties_Web.v | closed |
| C92_one_partial | Properties_Web.v | closed |
| C92_session_partial | Properties_Web.v | closed |
| C92_redirect_refuted | Properties_Web.v | closed |
| C92_smuggled_refuted | Properties_Web.v | closed |
| C93_head_partial | Properties_Web.v | closed |
| C93_origin_partial | Properties_Web.v | closed |
| C93_origin_refuted | Properties_Web.v | closed |
| C94_rights | Properties_Web.v | closed |
| C94_get_partial | Properties_Web.v | closed |
| C94_jsonp_refuted | Properties_Web.v | closed |
| C94_hidden_partial | Properties_Web.v | closed |
| C94_multicall_refuted | Properties_Web.v | closed |
| C94_shown | Properties_Web.v | closed |
| C95_defined_partial | Properties_Web.v | closed |
| C95_empty_refuted | Properties_Web.v | closed |
| C95_percent_refuted | Properties_Web.v | closed |
| C104_complete_partial | Properties_WebGet.v | closed |
| C104_answered | Properties_WebGet.v | closed |
| C104_page_refuted | Properties_WebGet.v | closed |
| C104_packed_refuted | Properties_WebGet.v | closed |
| C104_huge_refuted | Properties_WebGet.v | closed |
| C104_empty_refuted | Properties_WebGet.v | closed |
| C105_parts_partial | Properties_WebGet.v | closed |
| C105_v6_refuted | Properties_WebGet.v | closed |
| C105_port_refuted | Properties_WebGet.v | closed |
| C105_query_refuted | Properties_WebGet.v | closed |
| C105_nohost_refuted | Properties_WebGet.v | closed |
| C106_followed | Properties_WebGet.v | closed |
| C106_host_partial | Properties_WebGet.v | closed |
| C106_bound | Properties_WebGet.v | closed |
| C106_query_refuted | Properties_WebGet.v | closed |
| C106_other_refuted | Properties_WebGet.v | closed |
| C106_long_refuted | Properties_WebGet.v | closed |
| C107_quoted | Properties_WebGet.v | closed |
| C107_bare | Properties_WebGet.v | closed |
| C107_plain | Properties_WebGet.v | closed |
| C107_missing_refuted | Properties_WebGet.v | closed |
| C107_more_refuted | Properties_WebGet.v | closed |
| C107_escaped_refuted | Properties_WebGet.v | closed |
| C108_bound | Properties_WebGet.v | closed |
| C108_total | Properties_WebGet.v | closed |
| C108_unreachable | Properties_WebGet.v | closed |
| C108_failing | Properties_WebGet.v | closed |
| C108_missing | Properties_WebGet.v | closed |
| C108_unusable | Properties_WebGet.v | closed |
| C109_request_partial | Properties_WebGet.v | closed |
| C109_ports | Properties_WebGet.v | closed |
| C109_long_refuted | Properties_WebGet.v | closed |
| C109_login_refuted | Properties_WebGet.v | closed |
| C29_assembled_partial | Properties_Writer.v | closed |
| C29_whole_file_partial | Properties_Writer.v | closed |
| C29_new_file | Properties_Writer.v | closed |
| C29_uuencoded_refuted | Properties_Writer.v | closed |
| C29_forced_flush_refuted | Properties_Writer.v | closed |
| C29_restart_refuted | Properties_Writer.v | closed |
| C29_too_long_refuted | Properties_Writer.v | closed |
| C29_memory_in_file_refuted | Properties_Writer.v | closed |
| C96_memory | Properties_Writer.v | closed |
| C96_one_format | Properties_Writer.v | closed |
| C30_balance_partial | Properties_Writer.v | closed |
| C30_sum | Properties_Writer.v | closed |
| C30_grow_refuted | Properties_Writer.v | closed |
| C30_empty_block_refuted | Properties_Writer.v | closed |
| C01_yenc_roundtrip | Properties_Yenc.v | closed |
| C01_encoded_no_nul | Properties_Yenc.v | closed |
| C02_chunk_independent | Properties_Yenc.v | closed |
| C02_decoder_is_byte_machine | Properties_Yenc.v | closed |
| C03_crc_slicing | Properties_Yenc.v | closed |
| C04_crc_combine | Properties_Yenc.v | closed |
| C04_crc_of_file | Properties_Yenc.v | closed |
