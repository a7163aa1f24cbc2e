# Formal model of splunk/pion in Rocq

## Layout

* `rocq/theories/Base.v`: bytes, strings, machine arithmetic helpers.
* `rocq/theories/<Area>.v`: model of one area of the code, function by function. Every definition cites
  the file and lines in /repo it models, and says where it simplifies.
* `rocq/theories/<Area>Spec.v` (or a section marked SPEC): small independent specifications.
* `rocq/theories/<Area>Proofs*.v`: lemmas.
* `rocq/theories/P_<Area>.v`: the property theorems only, each closed by `exact lemma`, with
  `Print Assumptions` and non-vacuity `Example`s beside it.

## Modelling conventions

* A byte is a `Z` in [0,256), a string is `list Z`. Theorems about all byte strings carry the hypothesis
  `Forall is_byte s`, which every C++ `std::string` meets.
* `size_t`, `uint32_t`, ... are `Z` with the wrap (`mod 2^64` ...) written where the code can wrap.
* Undefined behaviour (out-of-bounds access, failed allocation arithmetic) is a distinct outcome, never
  folded into a normal one.
* `ihash_multimap` is a list of pairs. Where the order of equal keys in the hash container matters, the
  theorems quantify over the policy.
* Concurrency: small-step interleaving semantics, one step per atomic action (lock, unlock, guarded
  assignment); mutexes are explicit.
* External facilities (sockets, file system, clock, random generator, boost::regex on the fixed patterns,
  lexical_cast) are oracles: universally quantified inputs of the model or explicit transcriptions stated
  in the comment of the definition.
* If the expected statement is false of the faithful model, the file contains `..._refuted` (a witness) and
  the strongest true part as `..._partial`; the manifest status is then `partial`.

## Plan per property

* **C01 Base64 round trip.** Model both functions with the 32-bit length truncation; induction over 3-byte groups.
* **C02 Base64 decoding is memory safe and rejects foreign characters.** Table lookups are an option-valued function (None = out of bounds). Refutation with one byte >= 0x80; partial: ASCII input never out of bounds, and success iff the text has the accepted shape (separate grammar).
* **C03 Base64 encoding shape.** Induction over 3-byte groups; injectivity from C01.
* **C04 URL encoding round trip.** Byte-level lemma by exhaustive sweep over 256 bytes, then induction; converse: a NUL byte yields the text `%00`.
* **C05 URL encoding produces only safe characters.** Sweep over 256 bytes lifted by induction; separate inductive grammar of escaped text.
* **C06 URL decoding never grows the text.** Structural recursion in the model; induction.
* **C07 XML encoding neutralises markup.** Independent scanner `xml_safe` on the output; induction over the fuel-free recursion.
* **C08 XML encoding keeps valid text and stays inside the string.** Reads are option-valued on the buffer plus terminator; unescape function as specification.
* **C09 Fixed-width integer serialisation round trip.** Shifts and masks on Z; big-endian value as specification.
* **C10 24-bit signed integers round trip.** Refuted by -1; partial: exactly the non-negative values.
* **C11 Query string round trip.** Model of make_query_string and of the character state machine of parse_url_encoded; induction over pairs and characters.
* **C12 Set-Cookie round trip.** Model of make_set_cookie_header and parse_cookie_header.
* **C13 Cookie header parsing recovers the cookies sent.** Same state machine, induction over the list of pairs. C13_any_form: cookies written in any of the accepted forms (value missing, plain, or in single or double quotation marks; blanks; separated by semicolon or comma) are told in order, without those whose name is empty, reserved or begins with $.
* **C14 Form and cookie parsing is total and bounded.** Invariant over the state machine.
* **C15 Header dictionary semantics.** List-of-pairs model, refinement to a function from lower-case names to lists of values.
* **C16 Segmentation independence of HTTP parsing.** Whole-parser model; main lemma: parse (a++b) = parse a then parse b, for headers, chunks, content; lifted to any list of pieces.
* **C17 Pipelined bytes are left untouched.** The model returns the unread suffix; lemma that consumed ++ unread = input, plus independence from C16.
* **C18 Content-Length bodies are delivered exactly.** Execution lemma of consume_content for any body and any cut (via C16).
* **C19 Chunked bodies are delivered exactly.** Execution lemma of the chunk machine by induction over chunks.
* **C20 Oversized chunked bodies do not wedge the parser.** Refuted: invariant that the parser stays in the chunk-data state forever.
* **C21 Stored content never exceeds the configured maximum.** Invariant over all parser runs.
* **C22 Length limits on every header field.** Invariant over all parser runs.
* **C23 No out-of-bounds access while parsing.** Accesses to the content buffer are explicit in the model with the buffer's allocated size; invariant.
* **C24 A huge Content-Length cannot overflow the allocation.** lexical_cast<size_t> transcription; refutation at 2^64-1; partial: all other values.
* **C25 Parser error and result consistency.** Case analysis over all parser transitions plus invariant.
* **C26 Resetting a parser gives a fresh parser.** reset compared with constructor: simulation relation ignoring the fields overwritten before use.
* **C27 Progress of the parser.** Induction over input; case analysis.
* **C28 Trailer bytes belong to the message also with a payload handler.** Refuted by a concrete stream; partial: without handler trailers are consumed.
* **C29 Payload handler sees the whole body once.** Ghost trace of handler blocks; execution lemma.
* **C30 Request line parsing.** Execution lemma over the request-line states.
* **C31 Header parsing recovers the headers.** Execution lemma over header states by induction.
* **C32 Message serialisation round trip.** `MessageModel`: all setters, headers, cookies, `prepare_buffers_for_send`, `send`/`write`, `read`, as functions on a message; histories of calls by induction (the cached first line is an invariant); the bytes are shown to be a wire head plus body and composed with the parser theorem C18, for every cut into reads. Also through the one-byte-at-a-time `message::read`.
* **C33 Chunked writer output parses back.** `WriterModel`: state machine of the writer; invariant over payload/chunk steps; bytes equal a wire head plus well-formed chunks, composed with C19. Without `clear` between chunks: refuted (documented misuse).
* **C34 Announced length equals sent length.** Invariant over all set-up calls; the announced number is characterised exactly (iff); refuted for NUL-leading content and for `clear`. Round trip through the parser.
* **C35 A response without self-delimiting body closes the connection.** Invariant over all calls: the first part sent by send/send_chunk is delimited; closing is never undone. Client without chunks: composed with the close-delimited parser theorem. Refuted for send_final_chunk first and do_not_send_content_length.
* **C36 Keep-alive decision.** ReaderModel: check_keep_alive, reader::receive/consume_bytes/handle_read_error over a list of read completions; theorems for finished, refused and unfinished messages for every cut, and exactly when a connection is kept after a finished message. Refuted: Connection: Close (capital), close in a second Connection header, and message::receive after an error.
* **C37 Pipelined requests are answered in order, once each.** serve_all: reader + http::server + tcp::server::finish_connection as a loop; refinement to the inductive story of the stream; second theorem: two cuts of the same bytes do the same. A request ended only by look-ahead has no story (covered by the second theorem only).
* **C38 Longest prefix dispatch.** ServerModel: tables as sorted maps (SMap), find_request_handler as the downward loop from upper_bound; spec best: longest registered name over the history of add/remove/clear.
* **C39 Redirects terminate.** follow: the redirect loop with its counter; spec leads (n steps of the table made by the history).
* **C40 Restricted resources are never handled without authentication.** server_auth plugs AuthModel into ServerModel.handle_request; corollary of C43/C46 and dispatch_request for every table, history and request (basic and cookie).
* **C41 Restriction rule.** need_authentication over sorted sets; spec needs: from the history of add_restrict/add_permit and user calls, with covers (path below) as in C38.
* **C42 Escaped spellings cannot bypass a restriction.** FileModel with AuthModel: refuted (escaped letter); partial: a restriction of the service's own name holds for every spelling (C42_mount_partial); plain spellings of a file are unique (C42_plain_partial).
* **C43 Basic authentication accepts only known users.** AuthModel.basic_handle over timed histories (clock does not go back); invariant cache_ok: every cache entry goes back to an accepted request and at last to a right password. Spec basic_good.
* **C44 Revoked credentials stop working at once.** Refuted (revoked_stop); theorem C44_still_let_through says exactly how long revoked credentials go on.
* **C45 Cached credentials expire.** Contrapositive of the invariant with the 600 second bound; the bound of 300 seconds is refuted by a history.
* **C46 Cookie sessions are created only by a successful login.** AuthModel.cookie_handle/process_login over timed histories; invariant s_cache_ok: every session goes back to a login with a right password and was not ended since. Spec session_good.
* **C47 Logout and expiry end a session.** Logout and expiry from C46; C47_lives: until then the session is accepted. Expiry after 3600 seconds refuted, 7200 proved.
* **C48 User manager semantics.** UserModel (set_password, set_password_hash, match_password, the user manager; hash functions are parameters of any values of the right length); refinement to a finite map. Refuted for hashes that are not hexadecimal.
* **C49 Server stop leaves no connection.** TcpModel: threads as stacks of frames, the mutex, the pool, accept operations, handlers as arbitrary user code; one label per atomic action. Inductive invariant: a connection not yet given to the handler is in the pool and known nowhere else. Partial: for the stop that ended listening; refuted for a second stop.
* **C50 Connection count is meaningful.** Same model; refuted by an interleaving and partial in all states with one accept operation waiting (or not listening).
* **C51 Finishing a kept-alive connection cannot deadlock the server.** Same model; refuted by a trace into a state from which no step releases the mutex (invariant stuck); partial for handlers that make no call to the server while called with the mutex held.
* **C52 The scheduler runs while it has users.** SchedModel: any number of threads, stacks of frames, both schedulers. C52_count: exact count mod 2^32; refuted by an interleaving; partial: shutdown does not commit while an add is between its test and its lock.
* **C53 Scheduler shutdown completes.** Same model; stuck is an invariant (joins, with the mutex held, a thread that needs it); partial: continuation that ends shutdown exists for all work items that call nothing that locks, with induction over the threads to join.
* **C54 Exceptions in work items do not kill workers.** Same model; ghost numbers of the items: posted = run + destroyed + queued as multisets; workers: invariant that every service has its thread.
* **C55 Round robin over services.** Same model; closed form of the choices modulo n, windows are permutations of 0..n-1.
* **C56 Connection timers.** TimerModel: start, cancel, expiry, delivery of handlers in any order; invariants over traces. Refuted for a restart, partial for a single start.
* **C57 Plug-in lookup finds the most specific plug-in.** PluginModel: the downward search over the sorted map. Refuted; what is found is proved to be the most specific identifier, and the exact condition on the identifiers under which it is found.
* **C58 Plug-in objects are destroyed exactly once.** PluginModel: load in two steps (test, insertion). Refuted; permutation invariant between made, destroyed, stored and pending objects. Partial if objects are stored under unused identifiers.
* **C59 Plug-in libraries stay loaded while used.** PluginModel: data objects with 64-bit reference counts, map and handles; invariant: count = number of handles open on it. Self-assignment refuted.
* **C60 Plug-in instance pointers destroy once.** PluginModel: instance pointer over handle 0 of the libraries, other users interleaved. Refuted; partial without reset, exceptions and hanging open.
* **C61 Files are served only from the configured directory.** PathModel (Boost.Filesystem append, normalize, elements), FileModel (every access to the file system is in a trace). FileSpec.resolve says independently where a path leads. Refuted in three ways; partial: accesses are beside the directory; with no .. in the decoded request they are inside, for every directory.
* **C62 File transfer is complete and in bounds.** SenderModel (send, handle_write, the stream position, the transfer buffer) on top of the writer model and the parser model: bounds for every behaviour of the disk and connection, the pieces, the client's view, and the prefix property.
* **C63 Read-only file services never change files.** FileModel traces: induction over histories; status code through the writer model.
* **C64 File cache coherence.** FileModel with a disk per call (content, time, readability); invariant: each cache entry is a version of a file seen. Refuted for files that become unreadable; partial: readable files.
* **C65 SPDY frame recognition.** SpdyModel.v models recognition and parsing on bytes; SpdySpec.v has the fields by position. The recogniser is characterised exactly (`C65_control_partial`), as is the reported kind by type (`C65_report_partial`); four refutations: undefined types recognised, version 0 parsed, control frames of type 0 reported as data, HEADERS frames reported without kind.
* **C66 SPDY parsing stays inside the packet.** Every read of the packet and of the decompressor's 16 KB buffer is checked in the model. `C66_reads_partial` is an equivalence: the call reads outside exactly if `inside` fails, which lists the bytes needed per type. `C66_whole_partial`: complete frames other than GOAWAY of length 4 are safe; `C66_buffer_partial`: the condition on the buffer is invariant. Refuted for short packets, for complete version 2 GOAWAY frames and for header lists longer than the buffer. zlib is a parameter of the model, its output bounded by the buffer size; it is taken to need all input bytes it is told of.
* **C67 TCP stream output.** StreamModel (memory, pointers, environment-supplied write results); invariant: taken by the connection ++ held in the buffer = written. Also for arbitrary failures: a prefix up to the first failed call; what a retry after a half-done write does is refuted by C67_retry_refuted.
* **C68 TCP stream output after an error.** StreamModel with an explicit outcome for accesses outside the buffers. Refuted twice; partial: an access outside needs a failed sputc with no successful call since.
* **C69 TCP stream input.** StreamModel (read buffer memory, eback/gptr/egptr, memmove), StreamSpec.served: what a reader may be told, without the buffer; refinement by an invariant. Putting back after an error is refuted.
* **C70 Service configuration file.** ConfigModel.v models the byte state machine and its calls in order; ConfigSpec.v has an independent grammar of lines and their execution. Refinement proof: for files whose lines are all ended the machine does exactly what executing the lines does (`C70_lines`), the specification being deterministic. Refuted for a last line without end; `C70_tail_partial` says what happens to it. Calls of services may throw at any point (`env`). Not modelled: finding and opening the file, the C locale is assumed.
* **C71 URI parsing.** UriModel.parse_uri with output parameters as a record (values before the call included). URIs as records of parts; equality of all parts by list reasoning. Large ports and stale query refuted for every URI. C71_accepted_partial: whatever is accepted is composed of the parts told, with a host that is not empty. C71_embedded_refuted: a URI without scheme whose query has :// is read with the host in the query.
* **C72 Multipart forms.** MultipartModel (state machine over prefix/suffix of the body). Round trip for every list of fields by induction over fields; invariant on the byte before each state shows the only way out of the body.
* **C73 Forwarded-for extraction.** UriModel.parse_forwarded_for: the two regular expressions hand translated. Soundness by induction on the search, completeness over lists of addresses.
* **C74 Bytes missing from a capture.** HttpModel.parse_missing_data. Invariant (stored prefix, remaining, buffer) over any list of byte blocks and gaps; equivalence of a gap with dummy bytes for chunks and bodies without length.
* **C75 Response framing by request method and status.** C75_bodiless_partial, C75_until_close: the head with any headers but a chunked transfer coding; C18 and C19 give the other framings. C75_chunked_partial shows that every bodiless response with a chunked coding is read with its chunks; C75_bodiless_refuted.
* **C76 Log service keeps the newest entries.** ServicesModel.v models the appender with its 32 bit count and the page as calls of the writer. Induction over events; the page is read back with the writer round trip of C26 (`page_round_trip`). The appender is used under its lock, so histories are sequences; setMaxEvents takes no lock (a data race, not modelled). Not modelled: the formatting by the logging library. The page without a logging library is modelled and has no theorem of its own.
* **C77 Floating point serialisation.** FloatModel.v: long double as a parameter (precision, least and largest exponent, range of pow) with IEEE rounding after every operation; both functions bit by bit over a buffer. The layout of IEEE 754 and the round trip are proved for every format, platform and normal value by induction over the loops; where the global pow is the double function the 128-bit format is refuted and characterised.
* **C78 Process shutdown is never missed.** ShutdownModel in TimerModel: flag, mutex and condition variable with spurious wake-ups; no waiting thread is left once shutdown was called.
* **C79 XML encoding yields valid UTF-8.** Refuted with the Unicode definition of UTF-8; partial: structural well-formedness.
* **C80 Form parsing is exactly the documented grammar.** Independent split-and-decode specification; equality of state machine and specification by induction.
* **C81 Other line endings.** Head runs generalised to four line endings per line; the state behind the head differs from the CR LF one only in saved raw headers and byte counts, and a simulation shows the rest of the parse does not depend on these.
* **C82 The first line follows the fields.** Invariant: the cached line is empty or up to date, over all histories; refuted for change_resource.
* **C83 Sending a message again sends the same bytes.** Preparing a prepared message is the identity; refuted with cookies.
* **C84 Requests written in chunks are read back.** Refutation by computing the bytes and parsing them.
* **C85 Copies of payload are freed.** Count of allocated and cached copies over all call sequences; refuted with clear.
* **C86 A response without body leaves nothing behind.** Composition with C75; refuted with payload.
* **C87 Successive blocking receives.** m_receive_all over read completions; induction over the messages, as C37.
* **C88 Answers to logins carry only the asked redirect.** ReplyModel: the answers of cookie_auth as writer calls; composed with the writer-parser round trip (C34). Refuted by a request whose url has an escaped CR LF.
* **C89 Right passwords are always accepted.** Same model as C43: completeness.
* **C90 Authentication gives a verdict for every request.** UB of the Base64 table lookup reaches authentication; exact condition b64_high_byte_reached.
* **C91 Removing a user ends the sessions of the user.** Same model as C46; refuted by a history, and C47_lives holds whatever happens to the users.
* **C92 join returns after stop.** Same model as C49; invariant: a waiting thread in join implies that the server listens or a stop is in progress.
* **C93 A server is one user of its scheduler while it listens.** Same model as C49; invariant: users = listening - pending additions + pending removals (mod 2^32). Refuted for the bound.
* **C94 The scheduler's own timer runs at its rate.** KeepModel: timer waits and handlers of one service with time; invariant of at most one wait or handler; refuted by an unbounded family of executions without passing time.
* **C95 Posting uses a live service.** SchedModel with generations of the service pool; refuted by an interleaving, partial.
* **C96 Scheduler join returns after shutdown.** SchedModel; invariant: a thread waiting in join implies running or shutting down.
* **C97 Opening a plug-in returns.** PluginModel: open with the mutex held; refuted, partial with the condition on the handle.
* **C98 Plug-in objects are destroyed the way they were made.** PluginModel: each object tagged with its maker; refuted, partial.
* **C99 The sending of a file always ends.** SenderModel; refuted, partial: files that stay readable and do not shrink.
* **C100 Stream operations wait for their own completion.** StreamWait: interleavings of the client, the handlers and spurious wake-ups; invariants. Refuted for spurious wake-ups.
* **C101 The echo page mirrors the request.** ServicesModel.v: the page as calls of the writer; ServicesSpec.v: the page as text (`mirror`). Proved with the writer round trip.
* **C102 The cookie service answers with the asked cookie only.** ServicesModel.v. Refuted by two requests taken through the parser, the service and the client's parser; proved for names and values that are text.
* **C103 What a configuration file protects is never open.** On the trace of calls of the loader (ConfigModel.v); refuted for malformed later lines and for services that throw; `C103_order_partial` gives the order for every file.
* **C104 Every restriction of a configuration file is in force.** Refuted with a second auth command; `C104_last_partial` characterises the installed authentication for every file.
* **C105 Frames of a SPDY packet.** Induction over the list of frames, from one frame in any context (`frame_step`); the spec encodes frames independently and keeps one compression context per sender. zlib is a parameter.
* **C106 SPDY headers come from their frame.** Refuted with two frames; `C106_block_partial` says exactly what is reported for every header frame.
* **C107 A finished SPDY frame is whole.** Refuted with a truncated data frame; `C107_more_partial` for every packet with a header.
* **C108 No SPDY packet ends the process.** The failing assertion is a distinct outcome; `C108_exact_partial` characterises it. Assertions that pointers are not null are not modelled.
* **C109 Writing a floating point number ends.** FloatModel.v with a bound on loop iterations; termination exactly for finite values, divergence for infinities and NaNs for every bound.
* **C110 Subnormal numbers and zero.** FloatModel.v: reading gives half of each subnormal number; no subnormal number survives (number-theoretic argument); zero does, losing its sign.
* **C111 Numbers the format cannot hold.** FloatModel.v: truncation towards zero and saturation of the exponent field proved for every value; nearest and infinity refuted.
* **C112 Bytes of infinities and NaNs.** FloatModel.v: what is read for every bit string with an exponent field of ones.
* **C113 Error pages contain no markup of the request.** PagesModel.v models the six pages as calls of a response writer; the pages of the file service are those of FileModel.v. PagesSpec.v defines the tags and the text of a page, apart from the model. C113_pages_partial: each page is read by the client with its code, its tags are the fixed ones and its text shows the resource, method or error, decoded and cleaned (arguments of the program must be fit for their place). C113_forbidden_refuted: the message of a 403 page is not escaped. C113_files_partial: the tags of every answer of the file service are one of four fixed lists if the exception text has no tags; C113_delete_refuted: the exception text, which tells the path, is not escaped.
* **C114 Answers to HEAD have no content.** C114_files: the file service answers HEAD without payload, from every state. C114_pages_refuted: each of the six default pages is sent with its content to HEAD, and the client is left with exactly the page before the next response. (C86_left_partial has this for every writer.)
* **C115 Rights are given back as they were.** AdminModel.v has the ids of the process, seteuid as POSIX defines it, and the objects as small steps (wait for the mutex, read the id into 16 bits, set the id; release: set the id back, unlock). Invariants over all runs. C115_back_partial: for effective ids that 16 bits hold, whenever no object is in the middle of its life the ids are those of the beginning. C115_after_partial: for every id, what it is after one object: cut to 16 bits with sign, or 0 if that is -1. C115_back_refuted: as user 65534 (nobody) the process ends as another user. As tcp::server::start always makes such an object, this happens to every server started so.
* **C116 Administrative rights are held by one at a time.** C116_one: two objects between lock and unlock are the same, in every run. C116_rights_partial: the effective id is 0 while an object has rights if nothing else sets ids. C116_goes_on: an object that has the mutex can always step, others when it is free. C116_rights_refuted: run_as_user in another thread takes the rights away.
* **C117 Running as a user.** C117_runs: -1 and nothing changed, or the id returned is the effective one and the others are as before. C117_named_refuted: for an unknown name the current id is returned, as if successful. C117_lasts_refuted: an object released later sets the id back to the one before run_as_user.
* **C118 Ids of users and groups are looked up as the file lists them.** AdminSpec.v defines the lines and fields of a file and what it lists. C118_found_partial: in a file without empty names, passwords or ids a name that is no number is found exactly if listed with an id below 2^31, with that id, and exactly ids from 2^31 throw. C118_number: numbers. C118_found_refuted: an empty second field makes the fourth the id. C118_large_refuted: ids from 2^31 are legal and throw.
* **C119 A server can be started again after a failed start.** The acceptor and the flag of tcp::server, with the system's answers as input. C119_starts_partial: after any history in which no address, option or listen was refused start succeeds. C119_never_partial: after a refused bind, option or listen no start ever succeeds, whatever follows. C119_again_refuted.
* **C120 A truncated message is not taken for a whole one.** IoModel.v models streams with their state and read as the loop over the bytes. P_Io.v: reading byte by byte is feeding the parser byte by byte (read_loop_spec); a proper beginning leaves the parser indeterminate and not in the state that waits for the end of the connection (beginning), because from that state no bytes lead to a finished message. C120_truncated.
* **C121 Messages written one after another are read one after another.** C121_in_order, by induction over the messages with the segmentation theorems of the parser; clear makes every object the same.
* **C122 No error means a message was read.** C122_no_error_partial: from a good stream. C122_failed_stream_partial, C122_no_error_refuted: a stream that is already false gives an empty message and no error, because a new tribool is false.
* **C123 A response to HEAD is received without waiting for content.** C123_reader_partial: response_reader, every segmentation. C123_receive_partial: receive clears the method with the message, so for every header with a Content-Length it waits, and takes the next bytes for the content. C123_receive_refuted.
* **C124 write reports what the stream took.** Streams with the number of bytes they still take; induction over the buffers. C124_write. A stream that buffers and fails later is not modelled: the model's destination is the stream itself.
* **C125 Conflicting lengths are refused.** P_Framing.v. content_length_found (HttpBody.v): the body ends where the header that the table finds says. C125_conflict_partial: for every such head there is one of its values that decides; C125_conflict_refuted; C125_tables_refuted: two tables that place equal names differently do not agree on the end of the message.
* **C126 Unknown transfer codings are refused.** P_Framing.v: C126_ignored_partial (a coding that does not say chunked is ignored), C126_chunked_partial (one with "chunked" anywhere is chunks), C126_refused_refuted.
* **C127 First lines are read as written or refused.** LaxSpec.v says which bytes are read as a given head, HttpLax.v proves it by the steps of the header parser (dec_from_mod: accumulating modulo 65536). C127_read_as_partial, C127_no_version_partial, C127_refused_refuted.
* **C128 Uploaded files can be read back from their text form.** DataModel.v models base64_2binary (Boost's iterators from their documentation). P_Data.v: encode_parts splits every encoding into groups and padding; C128_round_trip, C128_required_partial (a buffer of the reported size is refused for every input), C128_required_refuted, C128_type_refuted.
* **C129 Web services are not destroyed while in use.** WebModel.v models http::plugin_server over the table of services, the tables of resources, the calls in progress and load_service in two steps; Theorems by an invariant over all runs (WebProofs.v). C129_destroyed_once_partial, C129_destroyed_twice_refuted, C129_in_use_partial, C129_in_use_refuted.
* **C130 Web services are started and stopped in pairs.** Invariant over orderly runs: started iff listening and in the table. C130_pairs_partial, C130_pairs_refuted, C130_other_ways.
* **C131 Options and requests of a resource reach the same service.** Invariant: both tables name the same service, using the longest-prefix theorem of the HTTP server (search_best). C131_options_partial, C131_options_refuted, C131_added_partial, C131_added_refuted.
* **C132 A web service knows its resource when it is called.** Same invariant with the name told to the service. C132_knows_partial, C132_knows_refuted, C132_two_slashes.
* **C133 Stopping a server comes to its end.** Over the model of the TCP server (TcpModel.v). StopProofs.v: one pass of the loop of stop empties a pool nobody refers to; the invariant stuck is kept by every step of every thread. C133_stop_partial, C133_waits, C133_never_returns, C133_own_stop_refuted.
* **C134 Dates in headers stand for the time given.** DateModel.v: gmtime and strftime as integer arithmetic on days of the Gregorian calendar, as documented; DateSpec.v: a calendar that counts day by day with leap years. DateProofs.v: the two agree, by the 400-year period and induction over the days; DateText.v: the text can be read back. C134_denotes_partial, C134_too_large, C134_unambiguous, C134_length_partial, C134_not_modified; C134_any_time_refuted, C134_locale_refuted, C134_length_refuted.
* **C135 Look-ups by hash find the values added.** HashModel.v: an array of buckets, with the hash function a parameter and entries with or without the hash kept; refinement to the dictionary of DictSpec.v by an invariant over all sequences of operations. C135_hash_respects, C135_equivalence, C135_table (no locale set), C135_ascii_partial; C135_locale_refuted, C135_not_ascii_refuted, C135_turkish_refuted.
* **C136 Answers to uploads and deletions tell what happened.** Over the model of the file service (FileModel.v) with the disk before and after a write as parameters. C136_answers_partial, C136_success; C136_honest_refuted, C136_full_disk_refuted, C136_two_pages.
* **C137 What was uploaded is what is served next.** Over all histories of the file service; an invariant tells that each cached content was on the disk at some request. C137_read_back_partial; C137_read_back_refuted, C137_ways_refuted.
* **C138 What the parser accepts is read as a legal message.** HttpSound.v: an invariant of the character loop says that what was read so far is the beginning of a legal head in a lax spelling (names and values within their alphabets and limits, numbers as 16 bit values, the table of headers the insertion of a list of legal headers). At the end of the head the legal head is read off the invariant; HttpEol.v's simulation says that the rest of the message is treated as behind that head. The invariant is kept through contents, chunks and trailers, which gives the statement about fields. Pieces by C16.
* **C139 Lines that begin with a blank continue the header before them.** FoldSpec.v defines the spellings of a head with indented lines and lines of blanks; HttpFold.v runs the character loop over them and shows that it leaves what the plain head leaves; refutation by a folded Host header.
* **C140 Blanks around a header's value are not part of it.** HttpFold.v, HttpFeeds.v; refutations by two blanks and by a slash behind the colon.
* **C141 A request line without version is a whole request.** HttpFold.v runs the loop over a line without version; refutation by a line ending in LF.
* **C142 The command line of piond means what it says.** PiondModel.v models main of utils/piond.cpp up to the check of its settings, with strtoul; PiondSpec.v defines options, how they are typed, and the last or all values given. Induction over the options shows that a typed list is read as its settings (C142_service_line_partial, C142_config_line_partial); the refusals behind any list of good options are C142_nothing_to_serve_partial, C142_unknown_partial, C142_value_missing_partial, C142_names_partial, C142_refused_values_partial. C142_port_partial says what each number becomes; the full claims are refuted.
* **C143 piond serves what was asked, or says that it does not.** The try block of main as a list of operations that stops at the first that throws (PiondModel.v). C143_all_done_partial, C143_config_partial: all is done in order if nothing throws; C143_start_last_partial: whatever throws, a start comes only after everything else; C143_refused_partial: a refused line does nothing. Exit status, SSL and ignored options are refuted.
* **C144 Connecting by name reaches the first address that accepts.** ConnectModel.v models the socket as closed or open for a family with or without a peer, with Boost.Asio's rules for connect, and the loop over the resolver's endpoints. Induction over the list gives C144_first_partial, C144_none_partial, C144_outcome_partial (any earlier state); C144_open_partial characterises open connections. Asynchronous connects and cancel are not modelled.
* **C145 Nothing asked to be encrypted is sent in the clear.** ConnectModel.v adds the SSL flag, the session of the SSL object and a ghost field for the handshake with the present peer. An invariant over all call sequences gives C145_stream_partial; C145_connected_partial and C145_handshake_partial complete it. Builds without SSL support refute the full claim. OpenSSL itself is not modelled: a handshake's answer is part of the call, and a session encrypts.
* **C146 The services without settings always answer with their page.** hello_ops and deny_ops of ServicesModel.v, sent through the writer model and read back with the parser model (P_Services.v): C146_hello_partial, C146_deny_partial for every cut; C146_head_partial for HEAD. The two violations are refuted statements.
* **C147 An exception tells what was attached to it.** ReportModel.v models the classes of error.hpp, the tags of their information, Boost.Exception's replace-by-tag and the kept text. Induction over what is attached: C147_what_partial (no confused kinds attached), C147_again_partial; three refuted full claims.
* **C148 Log output is complete and obeys the levels.** ReportModel.v models the logging macros for the standard streams with the one static level. Induction over the program's loggings: C148_written_partial gives both streams byte for byte; C148_own_partial is the full claim for programs that set levels of one logger; two refuted claims. The other logging libraries are not modelled.
* **C149 A plug-in asked for by name is the one found by the rules.** FindModel.v models the search (check_for_file, find_file, find_plugin_file, get_plugin_name) over a file system that answers for each path; opening uses PluginModel.v. C149_search_partial gives the list of places independently (for directories without a slash at their end and names that do not begin with one); C149_open_partial over every state that operations reach; four refuted full claims.
* **C150 The list of plug-ins is complete, exact and usable.** FindModel.v models the lists with the directory iterator as a parameter. C150_exact_partial and C150_fails_partial give the list and when it throws; C150_found_partial is by the search of C149 for consistent answers of the file system; C150_added_partial for directories; three refuted full claims.
* **C151 An interrupt or termination signal ends the wait for the end.** SignalModel.v models the two functions step by step per thread, with handlers running above what a thread does. Invariant of who has the mutex and who is asleep, a measure that every step lessens, and a lemma that a state without steps has only returned calls: C151_returns_partial (no signal to a thread that has the mutex), C151_only_partial (all executions), C151_signals_partial; the full claim refuted by an execution from which no continuation returns.
* **C152 Files are sent with the type that their name tells.** FileModel.v (find_mime, mime_types). P_Types.v has a table of its own. Invariant of the cache over all histories: every entry has the type of its name; C152_type_partial for files sent and answers without body, C152_one_partial for the configured file; the parts violated are refuted.
* **C153 Options of the file service take effect as written or are refused.** SettingModel.v (set_option on texts, over FileModel.fs_option and the cast of HttpModel). P_Settings.v: own table of the settings (inductive), own statement of the effect field by field; C153_all_taken and C153_taken_partial are the two directions, C153_refused_partial what refusals tell and keep; C153_configured by induction over the list of options links texts to the services of C61-C64; C153_read_only follows for texts.
* **C154 The first line of an answer tells what the handler set.** WriterModel.v, MessageModel.v. P_Version.v: the first line as a record changed by each call (own fold over the calls), invariant over all calls before the first send, then the bytes of the first send; C154_status_partial is the form without fold. The answer to HTTP 0.9 refuted and characterised for every content.
* **C155 The content of a message is a value of its own.** BufferModel.v models content_buffer_t with blocks of memory, pointers, allocation (granted or refused) and UB as a distinct outcome. P_Buffer.v: refinement of every program to a list of values, by an invariant (owner of each block, bytes, zero at the end, no leak); the two violations refuted, self-assignment also characterised exactly.
* **C156 A copy of a message is as good as the original.** CopyModel.v (member by member, over the messages of MessageModel.v). P_Copy.v: refinement of every program with messages to the list of calls each message had; self-assignment refuted.
* **C157 The text of an error tells what is wrong with the message.** ErrorModel.v has the tables of values and texts. P_Errors.v: own description of over-long parts with their names, theorem through the parser in any pieces (from C22); pairs of errors by cases (the errors are finitely many); the violations refuted.
* **C158 The error of SPDY parsing tells what the packet has wrong.** SpdyModel.v (zlib as parameter). P_SpdyErr.v: for each answer its reason in terms of the bytes (SpdySpec.v), shown exclusive and necessary; that other bytes do not matter by comparing two memories; the two violations for GOAWAY refuted.
* **C159 Content of a message whose headers are already known.** SkipModel.v on top of HttpModel.v. P_Skip.v: one call from the state that skip_header_parsing leaves, lifted to any division into buffers by the lemmas of C16; the violations refuted.
* **C160 Becoming a daemon.** DaemonModel.v: table of descriptors, lowest free descriptor, limit; fork and open may fail. P_Daemon.v: the descriptors of the new process exactly, for all tables and limits, by induction over the loop; the mode of created files bit by bit; the violations refuted.
* **C161 Comparing files regardless of the order of lines.** TestModel.v: reading lines, trimming, sorting, comparing. P_TestFiles.v: lines, lines that count and the equality of multisets (Permutation) are relations of their own; both directions for all files by induction, with uniqueness of ordered lists.
* **C162 Comparing files byte by byte.** TestModel.v: reading by buffers. P_TestFiles.v: the loop says yes iff the bytes are equal, for every size of buffer above 0, by induction.
* **C163 Comparing files regardless of line endings.** TestModel.v: istream::getline with a buffer and C strings. P_TestFiles.v: both directions for files whose lines fit and have no zero byte; the violations refuted, and what happens after a long line for all files.
* **C164 Log entries of several threads at once.** TestModel.v: formatter, threads with mutex and condition. P_TestLog.v: invariant over all interleavings (whole entries and at most one open one), order of each thread, ends from every reachable state; reading back the text; the violations refuted.
* **C165 What is held of a message is in proportion to what was received.** KeptSpec.v: the size of a dictionary. KeptProofs.v: potential arguments over the loops of the form, cookie, multipart, header and chunk parsers, combined in an invariant over all sequences of blocks. P_Kept.v: the bounds (headers, cookies and chunks at most the bytes received, variables at most 1024 times), that every comma repeats the name for all names and numbers of commas, so no smaller factor holds; the other violations refuted.
* **C166 The variables and cookies of a message are those it was sent with.** VarProofs.v: for the three ways content is sent (none, length, chunks with trailers) the message before the form is looked at has the head's variables and cookies, lifted to all cuts by C16. P_Vars.v: combined with the exact specifications of forms (C80), multipart forms (C72) and cookie headers (C13); violations refuted.
* **C167 What a user tells of its password can be carried to another manager and is no more than a digest.** P_User.v: an invariant over histories (the text told is read back to the bytes held), and equality of the runs of two histories whose passwords have equal digests. Refuted for histories with an update that threw.
* **C168 A service that scans its directory serves exactly the files that were there when it was started.** P_Scan.v: an inductive definition of the files below a directory; by induction on the depth of the scan and the entries of each directory, the entries stored are exactly those; requests keep them; the answers follow. Three violations refuted.
* **C169 A message finished early is marked so and keeps what came.** P_Cut.v: the state of the parser after the bytes that came, for each place of the cut, from the lemmas on heads, content and chunks; finishing depends only on what same_state compares, so any cut into blocks gives the same. Three violations refuted.
* **C170 Text given to a message stays where it was put.** P_Break.v, on the model of sending (MessageModel.v) and of the parser (HttpModel.v). `C170_lines_partial`: without CR and LF in the texts (all other bytes allowed, any length) the head is the first line, one line per header and cookie and for what the library sets, and the empty line; it cannot be cut into lines in any other way. `C170_added_partial`: with line breaks in header values or cookies, each followed by a legal header line (relation `seen`), the receiver reads exactly these lines as headers, with first line and content unchanged (lines that change the framing are left out: Content-Length, Transfer-Encoding, multipart types). `C170_split_partial`: a status text with an end of head in it ends the message there, whatever else was set, and the bytes behind it begin with the rest of the text. `C170_headers_refuted`, `C170_message_refuted`: the claim for all texts is false.
* **C171 Calls after the end of a message change nothing.** P_After.v, on the model of the parser (HttpModel.v: parse, finish, finish_forms). `C171_calls_partial`: for every finished message and every list of later calls, the message is the same but for the variables, and these are those before the form with the variables of the form once for the end and once more for each call; none without a form (`C171_same_partial`). `C171_reads_nothing`: such a call of parse reads no byte. `C171_form_refuted`: a form is added twice.
* **C172 A removed file is not found any more.** P_Gone.v, on the model of the file service (FileModel.v). An invariant over histories: without a scan every cached file was read before and is the one its name stands for. `C172_gone_partial`: without a scan, and without a cache or for a file that was not read before it was removed, the answer of every later request is 404, whatever was asked in between while the file was gone, and the service is left as it is. `C172_not_sent_partial`: with update checking, whatever was read before, the answer is 404 or the service throws. `C172_kept_partial`: what happens to a file that is in the cache: a file that a GET got and a DELETE removed makes the next GET throw with update checking, and is sent again without. `C172_gone_refuted`, `C172_ways_refuted`: the default settings, caching 2 and scans violate the claim.

## Trusted base

### Kernel and axioms

* The kernel of Coq 8.16.1, including its virtual machine (`vm_compute`); no kernel check is switched off, no plug-in, functor or
  module type is used.
* `Print Assumptions` stands beneath each property theorem. For every theorem and every example named `C<nn>_...` in the files
  `P_*.v` it prints `Closed under the global context`: no axiom at all, neither of this development nor of the standard library.
* `vcheck` lists seven axioms of `Coq.ssr.ssrunder` as being in the loaded part of the standard library (they are loaded with `Lia`
  and the tactics it needs). No theorem depends on them, as `Print Assumptions` shows.
* Only the standard library is imported (`ZArith`, `List`, `String`, `Ascii`, `Bool`, `Lia`, `ZifyBool`, `Permutation`).

### What is modelled

| Part of /repo | Files of the model |
|---|---|
| src/algorithm.cpp, include/pion/algorithm.hpp (Base64, URL and XML escapes, integer and floating point codecs) | AlgModel, FloatModel |
| src/http_parser.cpp, include/pion/http/parser.hpp (headers, chunks, content, footers, missing data, forms, cookies, multipart, URIs, forwarded-for, header parsing skipped) | HttpModel, FormModel, MultipartModel, UriModel, DataModel, SkipModel |
| include/pion/hash_map.hpp | DictModel (what users see), HashModel (buckets) |
| include/pion/http/{message,request,response}.hpp, src/http_message.cpp | MessageModel, IoModel, BufferModel (memory), CopyModel |
| include/pion/http/{writer,request_writer,response_writer}.hpp, src/http_writer.cpp | WriterModel |
| src/http_reader.cpp, include/pion/http/{reader,request_reader,response_reader}.hpp | ReaderModel, IoModel |
| src/http_server.cpp, include/pion/http/server.hpp | ServerModel, PagesModel, ReaderModel |
| src/http_plugin_server.cpp, include/pion/http/{plugin_server,plugin_service}.hpp | WebModel, ConfigModel |
| src/http_auth.cpp, src/http_basic_auth.cpp, src/http_cookie_auth.cpp, include/pion/user.hpp | UserModel, AuthModel, ReplyModel, PagesModel |
| src/http_types.cpp, include/pion/http/types.hpp | FormModel, DateModel, MessageModel |
| services/FileService.cpp and .hpp | PathModel, FileModel, SettingModel, SenderModel |
| services/{Log,Echo,Cookie,Hello,AllowNothing}Service.cpp | ServicesModel |
| src/tcp_server.cpp, src/tcp_timer.cpp, include/pion/tcp/{server,connection,timer,stream}.hpp | TcpModel, TimerModel, ConnectModel, StreamModel |
| src/scheduler.cpp, include/pion/scheduler.hpp | SchedModel, KeepModel |
| src/plugin.cpp, include/pion/{plugin,plugin_manager}.hpp | PluginModel, FindModel |
| src/process.cpp (not Windows) | TimerModel, SignalModel, DaemonModel |
| src/spdy_parser.cpp, src/spdy_decompressor.cpp, include/pion/spdy | SpdyModel |
| src/admin_rights.cpp | AdminModel |
| include/pion/{error,logger}.hpp, the errors of the parsers | ReportModel, ErrorModel |
| include/pion/test/unit_test.hpp (comparing files, the formatter of logs) | TestModel |
| utils/piond.cpp | PiondModel |

### What is not modelled

* The branches for Windows and Cygwin, the build files, utils/helloserver.cpp, the tests of the project.
* Logging with log4cxx, log4cplus or log4cpp, and what is written to the log at other places than the theorems name.
* The calls of `tcp::connection` that only hand their arguments to Boost.Asio (connection.hpp:385-549, 639-675), and the global set-up of
  tests (unit_test.hpp:205-249, 410-450).
* Compilation: integer widths are those of x86-64 with gcc (`char` signed, `int` 32 bits, `size_t` and `long` 64 bits); that the compiler keeps
  the meaning of a program without undefined behaviour; memory that runs out, unless a definition says otherwise (BufferModel does).
* Data races: shared variables that the code protects with a mutex are changed in one step, those it does not protect are changed one at a
  time (SignalModel, TcpModel, SchedModel, TimerModel); weak memory orders are not modelled.

### What is assumed of others

The model says what these do where the code calls them; the comments of the definitions name the calls.

* **C library**: `strtol`, `strtoul`, `isalpha`, `tolower`, `isspace`, `memcpy`, `memcmp`, `strlen` (C locale); `gmtime` and `strftime`
  (DateModel computes the calendar); `long double` is a parameter
  of FloatModel (precision, smallest value, range; IEEE 754 rounding to nearest).
* **C++ library**: `std::string`, `std::map` (sorted list, SMap), `std::set`, `std::list::sort`; the non-virtual part of `std::basic_streambuf`
  (StreamModel); `std::istream::get`, `read`, `getline`, `std::getline` and formatted output as the standard has them; `new` and `delete`
  (BufferModel: blocks that are fresh, freed once, of their size; allocation can be refused).
* **Boost**: `unordered_multimap` (equal keys are together; their order is that of insertion or the theorem ranges over it; a copy keeps it),
  `lexical_cast` to and from integers, `trim`, archive iterators for Base64, `boost::regex` for the fixed patterns of http_message.cpp:28,
  http_parser.cpp:1669-1690 and admin_rights.cpp:122, Boost.Filesystem paths (PathModel, version 3 on POSIX), Boost.Exception, Boost.Test's escapes.
* **Boost.Asio**: every read, write, accept, connect, resolve and timer ends once, with an answer that is a parameter or part of the history of
  operations (any error, any number of bytes); a handler runs at most once per operation; `io_service::run` returns when stopped or out of work.
* **System**: `fork`, `setsid`, `open`, `dup`, `close`, `umask`, `getdtablesize` (DaemonModel), `seteuid` and saved user ids (AdminModel), signals
  delivered between any two steps of a thread (SignalModel), mutexes and conditions of POSIX with wake-ups without a reason, `dlopen` and
  `dlsym` (a library is loaded once and unloaded when its last handle is closed); the file system is a parameter (FileModel, FindModel).
* **zlib, OpenSSL**: `inflate` is any function from a state and bytes to a state, bytes and whether it failed; the hash functions of passwords
  are parameters (a theorem about accepted passwords speaks of passwords with the same hash); the outcome of a handshake is part of the history.
* The clock is any sequence of times (theorems that need a clock that does not go back say so); the random generator's results are parameters.

### How theorems were tested

`seeded/LOG.jsonl` has one line for every wrong program tried: edits of the model by hand, as realistic bugs, and edits made by a script
(constants, conditions, branches exchanged). For each the theorems that failed, and those tightened because of it, are named. Edits after
which nothing failed are there as well, with the reason why no claim is false then.
