{"id": "C01", "title": "Base64 round trip", "statement": "Decoding the Base64 encoding of any byte string (below the 4 GiB limit of the implementation's 32-bit length) reports success and gives back exactly the original bytes.", "quantifier": "every byte string shorter than about 3 GiB, every residue of the length mod 3", "why_tests_cant": "the input space is infinite; padding branches interact with all byte values", "anchors": ["src/algorithm.cpp: algorithm::base64_encode", "src/algorithm.cpp: algorithm::base64_decode"]}
{"id": "C02", "title": "Base64 decoding is memory safe and rejects foreign characters", "statement": "base64_decode never reads outside its lookup table, and it returns true only when every character before an optional '=' terminator belongs to the Base64 alphabet. (Violated: a byte >= 0x80 indexes the table with a negative number.)", "quantifier": "every byte string given as input", "why_tests_cant": "an out-of-bounds table read does not fail visibly in a test; all strings must be covered", "anchors": ["src/algorithm.cpp: algorithm::base64_decode"]}
{"id": "C03", "title": "Base64 encoding shape", "statement": "The Base64 encoding of n bytes has exactly 4*ceil(n/3) characters, all of them from the Base64 alphabet except at most two trailing '=' pads, and distinct inputs have distinct encodings.", "quantifier": "every byte string shorter than about 3 GiB", "why_tests_cant": "universal over lengths and contents", "anchors": ["src/algorithm.cpp: algorithm::base64_encode"]}
{"id": "C04", "title": "URL encoding round trip", "statement": "url_decode(url_encode(s)) = s exactly for the strings s that contain no NUL byte; a NUL byte is the only byte that does not survive.", "quantifier": "every byte string", "why_tests_cant": "universal over all byte strings, and the iff needs both directions", "anchors": ["src/algorithm.cpp: algorithm::url_encode", "src/algorithm.cpp: algorithm::url_decode"]}
{"id": "C05", "title": "URL encoding produces only safe characters", "statement": "url_encode output consists only of graphic ASCII characters none of which is a separator used by the query-string or cookie parsers ('&', '=', ',', ';', '+', '#', '?', '/', quotes, angle brackets, space, control characters); '%' only ever starts an escape of two upper-case hex digits.", "quantifier": "every byte string", "why_tests_cant": "universal over all byte strings", "anchors": ["src/algorithm.cpp: algorithm::url_encode"]}
{"id": "C06", "title": "URL decoding never grows the text", "statement": "url_decode terminates on every input, its result is never longer than its input, and text without '%' and '+' is returned unchanged.", "quantifier": "every byte string, including malformed and truncated escapes", "why_tests_cant": "malformed escapes make the decoder step backwards; termination and length need all inputs", "anchors": ["src/algorithm.cpp: algorithm::url_decode"]}
{"id": "C07", "title": "XML encoding neutralises markup", "statement": "The output of xml_encode never contains a raw '<', '>', '\"' or apostrophe, and every '&' in it starts one of the five predefined entities; so it can be embedded in element text or quoted attributes.", "quantifier": "every byte string, including truncated and invalid UTF-8", "why_tests_cant": "injection safety is a statement about all inputs", "anchors": ["src/algorithm.cpp: algorithm::xml_encode"]}
{"id": "C08", "title": "XML encoding keeps valid text and stays inside the string", "statement": "xml_encode never reads past the terminating NUL of its input, escaping is reversible on valid text (unescaping the five entities gives the original back for every string made of XML ASCII characters and well-formed multi-byte sequences) and every other byte becomes U+FFFD.", "quantifier": "every byte string", "why_tests_cant": "all truncation positions of multi-byte sequences at the end of the buffer must be covered", "anchors": ["src/algorithm.cpp: algorithm::xml_encode"]}
{"id": "C09", "title": "Fixed-width integer serialisation round trip", "statement": "For each of the 8, 16, 32 and 64 bit signed and unsigned codecs and unsigned 24 bit, reading back the bytes written for a value gives the value, and writing the value read from bytes gives the bytes; byte order is big-endian.", "quantifier": "every representable value and every byte buffer", "why_tests_cant": "2^64 values", "anchors": ["include/pion/algorithm.hpp: to_uint8..to_int64, from_uint8..from_int64"]}
{"id": "C10", "title": "24-bit signed integers round trip", "statement": "from_int24 followed by to_int24 gives back every signed 24-bit value. (Violated: negative values come back as positive numbers above 2^23.)", "quantifier": "every value in [-2^23, 2^23)", "why_tests_cant": "needs every value; the failing half is exactly the negative half", "anchors": ["include/pion/algorithm.hpp: to_int24, from_int24"]}
{"id": "C11", "title": "Query string round trip", "statement": "For every list of name/value pairs with non-empty names (within the length limits and without NUL bytes), the query string built from it is accepted by the URL-encoded form parser, which recovers exactly the same pairs in order.", "quantifier": "every finite list of name/value pairs", "why_tests_cant": "composition of encoder and parser over all lists of strings; separators inside names and values", "anchors": ["src/http_types.cpp: types::make_query_string", "src/http_parser.cpp: parser::parse_url_encoded", "src/algorithm.cpp: url_encode/url_decode"]}
{"id": "C12", "title": "Set-Cookie round trip", "statement": "For every legal cookie name that is not one of the reserved attribute names, every value without a double quote and within the size limit, every legal path and every age, the Set-Cookie header text produced for it (with any path and age options) is parsed back to exactly that one name and value, none of the attributes being mistaken for cookies.", "quantifier": "every legal cookie name, value, path and max-age option", "why_tests_cant": "composition of formatter and parser over all strings", "anchors": ["src/http_types.cpp: types::make_set_cookie_header", "src/http_parser.cpp: parser::parse_cookie_header", "include/pion/http/parser.hpp: is_cookie_attribute"]}
{"id": "C13", "title": "Cookie header parsing recovers the cookies sent", "statement": "A Cookie header produced by joining any number of name=value pairs of legal names and values with '; ' is parsed into exactly those pairs.", "quantifier": "every list of legal cookie pairs", "why_tests_cant": "all list lengths and contents", "anchors": ["src/http_parser.cpp: parser::parse_cookie_header"]}
{"id": "C14", "title": "Form and cookie parsing is total and bounded", "statement": "Parsing a URL-encoded body or a Cookie header terminates on every input without touching memory outside it, and every name it stores is at most 1024 characters and every value at most 1 MiB before URL-decoding.", "quantifier": "every byte string and length", "why_tests_cant": "adversarial inputs of any length", "anchors": ["src/http_parser.cpp: parse_url_encoded, parse_cookie_header"]}
{"id": "C15", "title": "Header dictionary semantics", "statement": "Header, query and cookie dictionaries behave as case-insensitive multimaps: after changing a header exactly one value remains and reading it under any capitalisation gives the new value, deleting removes all values, adding keeps the previous ones, and no other name is affected.", "quantifier": "every history of add/change/delete/get operations, every capitalisation, either ordering policy of equal keys in the hash container", "why_tests_cant": "all operation histories; the container's order of equal keys is unspecified", "anchors": ["include/pion/http/message.hpp: get_value, change_value, delete_value, add_header, change_header, delete_header", "include/pion/hash_map.hpp: ihash, iequal_to"]}
{"id": "C16", "title": "Segmentation independence of HTTP parsing", "statement": "How the bytes of an HTTP message are split over successive reads does not matter: feeding a byte stream in one buffer or in any number of non-empty pieces leads to the same result (finished / error code / needs more), the same message contents and the same unread remainder.", "quantifier": "every byte stream, every way of cutting it, every parser configuration", "why_tests_cant": "exponentially many cuts of every stream", "anchors": ["src/http_parser.cpp: parser::parse, parse_headers, parse_chunks, consume_content", "include/pion/http/parser.hpp"]}
{"id": "C17", "title": "Pipelined bytes are left untouched", "statement": "When parsing finishes a message, the bytes consumed plus the bytes left unread are exactly the bytes supplied, in order; a following message can be parsed from the unread bytes by a fresh parser.", "quantifier": "every byte stream and cut", "why_tests_cant": "all streams", "anchors": ["src/http_parser.cpp: parser::parse", "src/http_reader.cpp: reader::consume_bytes"]}
{"id": "C18", "title": "Content-Length bodies are delivered exactly", "statement": "For every request or response with one Content-Length of n not above the configured maximum (and below 2^64 - 1), no transfer coding that means chunked and no multipart form in it, parsing header and n body bytes finishes exactly at the end of the body, and the content of the message is exactly these n bytes.", "quantifier": "every body, every length up to the maximum, every segmentation", "why_tests_cant": "all bodies and all cuts", "anchors": ["src/http_parser.cpp: consume_content, finish_header_parsing, finish"]}
{"id": "C19", "title": "Chunked bodies are delivered exactly", "statement": "For every message that is not a multipart form and every sequence of non-empty chunks whose total size does not exceed the maximum content length (and is below 2^64 - 1), parsing its chunked encoding finishes at the final CRLF and yields the concatenation of the chunks as content.", "quantifier": "every list of chunks, every segmentation", "why_tests_cant": "all chunkings of all bodies", "anchors": ["src/http_parser.cpp: parse_chunks", "src/http_message.cpp: concatenate_chunks"]}
{"id": "C20", "title": "Oversized chunked bodies do not wedge the parser", "statement": "A chunked body longer than the maximum content length is still parsed to its end (truncated content) or rejected. (Violated: once the cache is full, bytes are swallowed without being counted, so the message never ends and all following data is discarded.)", "quantifier": "every chunked message whose total exceeds the maximum", "why_tests_cant": "needs the behaviour after the limit for all later data", "anchors": ["src/http_parser.cpp: parse_chunks lines 1444-1456"]}
{"id": "C21", "title": "Stored content never exceeds the configured maximum", "statement": "The content stored for any message is never longer than the configured maximum content length, however long the peer claims or sends (for maxima below 2^64 - 1).", "quantifier": "every byte stream, segmentation and configured maximum", "why_tests_cant": "all streams", "anchors": ["src/http_parser.cpp: finish_header_parsing, consume_content, consume_content_as_next_chunk, parse_chunks"]}
{"id": "C22", "title": "Length limits on every header field", "statement": "Method, resource, query string, header names, header values and status message stored from any input never exceed their documented maximum lengths; longer ones give an error.", "quantifier": "every byte stream and segmentation", "why_tests_cant": "all streams", "anchors": ["src/http_parser.cpp: parse_headers", "include/pion/http/parser.hpp: limits"]}
{"id": "C23", "title": "No out-of-bounds access while parsing", "statement": "Parsing never reads outside the supplied buffer and never writes outside the allocated content buffer, as long as the configuration is not changed in the middle of a message and the maximum content length is below 2^64-1; the parsing of a multipart form at the end of a request, which may throw, is apart (C72).", "quantifier": "every byte stream, segmentation and reachable parser state", "why_tests_cant": "memory errors are silent; all states must be covered", "anchors": ["src/http_parser.cpp: parse, consume_content, parse_missing_data", "include/pion/http/message.hpp: content_buffer_t::resize"]}
{"id": "C24", "title": "A huge Content-Length cannot overflow the allocation", "statement": "No Content-Length header value makes the content buffer smaller than the length recorded for it. (Violated for the default maximum used by message::receive/read: 18446744073709551615, also written as -1, allocates zero bytes.)", "quantifier": "every header value", "why_tests_cant": "a single 64-bit value out of 2^64", "anchors": ["include/pion/http/message.hpp: update_content_length_using_header, content_buffer_t::resize"]}
{"id": "C25", "title": "Parser error and result consistency", "statement": "parse returns false exactly when it sets an error code; a finished message is marked valid and has status ok (partial if bytes were reported missing before), a rejected one status truncated (or partial).", "quantifier": "every stream, configuration and state", "why_tests_cant": "all states", "anchors": ["src/http_parser.cpp: parse, finish, compute_msg_status"]}
{"id": "C26", "title": "Resetting a parser gives a fresh parser", "statement": "After reset() the parser treats every following byte stream exactly like a newly constructed parser with the same configuration, whatever was parsed before.", "quantifier": "every earlier history and every later stream", "why_tests_cant": "all histories", "anchors": ["include/pion/http/parser.hpp: parser::reset", "src/http_parser.cpp: parse"]}
{"id": "C27", "title": "Progress of the parser", "statement": "Every call of parse on a non-empty buffer that reports 'not finished' has consumed the whole buffer, so readers make progress and never loop on the same bytes.", "quantifier": "every buffer and state", "why_tests_cant": "all states", "anchors": ["src/http_parser.cpp: parse", "src/http_reader.cpp"]}
{"id": "C28", "title": "Trailer bytes belong to the message also with a payload handler", "statement": "With a payload handler installed, a chunked message with trailers is consumed up to the end of the trailers just as without one. (Violated: the message is reported finished at the end of the last chunk and the trailer bytes are left over as the start of the next pipelined message.)", "quantifier": "every chunked message with trailers", "why_tests_cant": "differs only for one configuration and message shape", "anchors": ["src/http_parser.cpp: parse lines 80-100, parse_chunks"]}
{"id": "C29", "title": "Payload handler sees the whole body once", "statement": "With a payload handler, the concatenation of the byte blocks passed to it equals the body of the message, independent of segmentation, for bodies with a Content-Length (below 2^64 - 1), in chunks without trailers (C28 treats these) or up to the end of the connection, and nothing is stored in the message.", "quantifier": "every body and segmentation", "why_tests_cant": "all bodies and cuts", "anchors": ["src/http_parser.cpp: consume_content, parse_chunks"]}
{"id": "C30", "title": "Request line parsing", "statement": "For every method, resource and optional query of legal characters and allowed length and every version with numbers below 65536 (the first not 0), the request line is parsed into exactly these parts.", "quantifier": "every legal request line", "why_tests_cant": "all strings", "anchors": ["src/http_parser.cpp: parse_headers"]}
{"id": "C31", "title": "Header parsing recovers the headers", "statement": "For every list of header names and values of legal characters, the header block is parsed into exactly these pairs, with repetitions (their order is up to the hash container).", "quantifier": "every list of legal headers", "why_tests_cant": "all lists", "anchors": ["src/http_parser.cpp: parse_headers"]}
{"id": "C32", "title": "Message serialisation round trip", "statement": "Every request or response with legal fields made by the setters of the message (but change_resource, C82), sent with a Content-Length and with content that is no multipart form, serialised by the library and parsed again by it, yields the same first line, the same headers and the same content.", "quantifier": "every legal message", "why_tests_cant": "all messages; composition of writer and parser", "anchors": ["include/pion/http/message.hpp: prepare_buffers_for_send, prepare_headers_for_send, append_headers", "include/pion/http/request.hpp, response.hpp: update_first_line", "src/http_parser.cpp"]}
{"id": "C33", "title": "Chunked writer output parses back", "statement": "For every sequence of payload writes sent by the writer with send_chunk / send_final_chunk to a client that supports chunks, the writer being cleared after each chunk, the bytes after the headers are parsed back into the concatenation of the writes.", "quantifier": "every sequence of writes and every grouping into chunks", "why_tests_cant": "all sequences", "anchors": ["src/http_writer.cpp: prepare_write_buffers", "include/pion/http/writer.hpp: send_chunk, send_final_chunk, clear", "src/http_parser.cpp: parse_chunks"]}
{"id": "C34", "title": "Announced length equals sent length", "statement": "A response sent with send() announces in Content-Length exactly the number of body bytes it sends. (Violated for a response object whose content starts with a NUL byte: the length is announced but no body is sent.)", "quantifier": "every response content and every sequence of writes", "why_tests_cant": "one content shape out of all", "anchors": ["include/pion/http/response_writer.hpp: constructor, prepare_buffers_for_send", "include/pion/http/writer.hpp"]}
{"id": "C35", "title": "A response without self-delimiting body closes the connection", "statement": "Whenever a response is sent without Content-Length and without chunking, the connection is marked to be closed so that the client can find the end. (Violated: send_final_chunk without a preceding send_chunk to a client without chunk support.)", "quantifier": "every sequence of writer calls", "why_tests_cant": "all call sequences", "anchors": ["include/pion/http/writer.hpp: send, send_chunk, send_final_chunk", "include/pion/http/message.hpp: prepare_headers_for_send"]}
{"id": "C36", "title": "Keep-alive decision", "statement": "A connection is kept open exactly when the message does not say Connection: close and is HTTP/1.1 or later; a message not finished or invalid always leads to closing. (Violated: close in other case is not seen; of several Connection headers only the first in the order of the table counts; message::receive leaves the connection as it was after an error.)", "quantifier": "every message and reader run", "why_tests_cant": "all messages", "anchors": ["include/pion/http/message.hpp: check_keep_alive", "src/http_reader.cpp: consume_bytes"]}
{"id": "C37", "title": "Pipelined requests are answered in order, once each", "statement": "On a connection that receives several pipelined requests in one or more reads, the request handler is called for each request exactly once, in order, with the contents it would have had if received alone.", "quantifier": "every sequence of requests and segmentation", "why_tests_cant": "all sequences and cuts", "anchors": ["src/http_reader.cpp: receive, consume_bytes", "src/http_server.cpp: handle_connection", "src/tcp_server.cpp: finish_connection", "include/pion/tcp/connection.hpp: save_read_pos, load_read_pos"]}
{"id": "C38", "title": "Longest prefix dispatch", "statement": "A request is dispatched to the handler registered for the longest registered resource that equals the requested path or is an ancestor directory of it; if there is none the not-found handler runs.", "quantifier": "every set of registered resources and every requested path", "why_tests_cant": "all sets and paths, ordering of the underlying map", "anchors": ["src/http_server.cpp: find_request_handler, add_resource, remove_resource"]}
{"id": "C39", "title": "Redirects terminate", "statement": "Following server-side redirects terminates after at most ten steps for every redirect table, also with cycles, in which case the error handler runs; otherwise the final resource is not itself redirected.", "quantifier": "every redirect table and request", "why_tests_cant": "all graphs including cycles", "anchors": ["src/http_server.cpp: handle_request, add_redirect"]}
{"id": "C40", "title": "Restricted resources are never handled without authentication", "statement": "With authentication configured, a request handler is only called if the (redirected) resource needs no authentication by the restrict/permit lists or the request carried valid credentials; otherwise only the authentication response is sent.", "quantifier": "every configuration, request and history", "why_tests_cant": "all configurations and requests", "anchors": ["src/http_server.cpp: handle_request", "src/http_auth.cpp: need_authentication, find_resource"]}
{"id": "C41", "title": "Restriction rule", "statement": "With users whose hashes, if given as such, are in hexadecimal, authentication is required exactly if at least one user exists, the requested path equals or lies below a restricted path, and it does not equal or lie below a permitted path.", "quantifier": "every restrict list, permit list and path", "why_tests_cant": "all lists", "anchors": ["src/http_auth.cpp"]}
{"id": "C42", "title": "Escaped spellings cannot bypass a restriction", "statement": "If two requested paths make the file service serve the same file, either both or none need authentication. (Violated: the restriction compares the undecoded path while the file service decodes it.)", "quantifier": "every pair of paths and restriction", "why_tests_cant": "all spellings", "anchors": ["src/http_auth.cpp: need_authentication", "include/pion/http/plugin_service.hpp: get_relative_resource", "services/FileService.cpp: operator()"]}
{"id": "C43", "title": "Basic authentication accepts only known users", "statement": "A request to a restricted resource is let through by basic authentication only if its Authorization header is a Basic credential whose Base64 text decodes to user:password of an existing user with that password, or this same credential text was accepted before within the cache lifetime.", "quantifier": "every history of requests and user changes", "why_tests_cant": "all histories", "anchors": ["src/http_basic_auth.cpp: handle_request, parse_authorization, parse_credentials"]}
{"id": "C44", "title": "Revoked credentials stop working at once", "statement": "After a user is removed or the password is changed, requests with the old credentials are refused. (Violated: credentials are cached and stay valid until the cache entry expires.)", "quantifier": "every history", "why_tests_cant": "depends on timing and history", "anchors": ["src/http_basic_auth.cpp: handle_request", "include/pion/user.hpp"]}
{"id": "C45", "title": "Cached credentials expire", "statement": "A cached basic authentication credential that is not used stops being accepted after at most twice the cache expiration time without being looked up again.", "quantifier": "every history with time stamps", "why_tests_cant": "all timed histories", "anchors": ["src/http_basic_auth.cpp: handle_request"]}
{"id": "C46", "title": "Cookie sessions are created only by a successful login", "statement": "Cookie authentication accepts a request to a restricted resource only if its session cookie was issued by an earlier successful login with a correct user name and password, and that session was neither logged out nor expired since.", "quantifier": "every history of logins, logouts, requests and clock values", "why_tests_cant": "all histories", "anchors": ["src/http_cookie_auth.cpp: handle_request, process_login, expire_cache"]}
{"id": "C47", "title": "Logout and expiry end a session", "statement": "After a logout the session cookie is refused; an unused session is refused after its expiration.", "quantifier": "every history", "why_tests_cant": "all timed histories", "anchors": ["src/http_cookie_auth.cpp: process_login, expire_cache"]}
{"id": "C48", "title": "User manager semantics", "statement": "The user manager behaves as a map from names to passwords: adding fails if the name exists, updating and removing fail if it does not, matching succeeds exactly for the stored password.", "quantifier": "every history of add/update/remove/get", "why_tests_cant": "all histories", "anchors": ["include/pion/user.hpp: user_manager"]}
{"id": "C49", "title": "Server stop leaves no connection", "statement": "Whenever stop returns, the connection pool is empty and no new connection is accepted or handed to the handler afterwards unless start is called again. (Violated by a second stop called while another one waits for connections: it returns at once.)", "quantifier": "every interleaving of accept, handling, finish, start and stop", "why_tests_cant": "thread interleavings", "anchors": ["src/tcp_server.cpp: start, stop, listen, handle_accept, finish_connection, prune_connections"]}
{"id": "C50", "title": "Connection count is meaningful", "statement": "get_connections never reports more connections than were accepted. (Violated: between the two critical sections of start it reports 2^64-1.)", "quantifier": "every interleaving", "why_tests_cant": "needs a specific interleaving", "anchors": ["src/tcp_server.cpp: start, get_connections"]}
{"id": "C51", "title": "Finishing a kept-alive connection cannot deadlock the server", "statement": "A connection handler may call finish() on its connection at any time. (Violated: when the connection is kept alive, finish_connection calls the handler while holding the server mutex, so a handler that finishes synchronously blocks on the mutex its own thread holds.)", "quantifier": "every handler behaviour and interleaving", "why_tests_cant": "deadlock appears only for synchronous handlers", "anchors": ["src/tcp_server.cpp: finish_connection", "src/http_server.cpp: handle_request"]}
{"id": "C52", "title": "The scheduler runs while it has users", "statement": "While a registered active user exists the scheduler is running. (Violated: add_active_user tests the running flag before taking the lock.)", "quantifier": "every interleaving of add_active_user, remove_active_user, startup and shutdown", "why_tests_cant": "race between unlocked test and lock", "anchors": ["src/scheduler.cpp: add_active_user, remove_active_user, shutdown", "include/pion/scheduler.hpp"]}
{"id": "C53", "title": "Scheduler shutdown completes", "statement": "When all active users are gone, shutdown returns. (Violated: shutdown joins worker threads while holding the scheduler mutex, so a worker that needs the mutex, for example posting with the one-to-one scheduler, deadlocks.)", "quantifier": "every interleaving", "why_tests_cant": "deadlock for particular interleavings", "anchors": ["src/scheduler.cpp: shutdown", "include/pion/scheduler.hpp: stop_threads, one_to_one_scheduler::get_io_service"]}
{"id": "C54", "title": "Exceptions in work items do not kill workers", "statement": "Every posted work item is executed exactly once even if other items throw exceptions, as long as the scheduler is running and its number of threads is not changed.", "quantifier": "every queue content and every pattern of exceptions", "why_tests_cant": "all patterns", "anchors": ["src/scheduler.cpp: process_service_work"]}
{"id": "C55", "title": "Round robin over services", "statement": "The one-to-one scheduler hands out its services in strict rotation: any n consecutive requests with n threads (n at least 1 and not changed) return each service exactly once, and the index is always inside the pool.", "quantifier": "every number of threads and every number of calls", "why_tests_cant": "all n", "anchors": ["include/pion/scheduler.hpp: one_to_one_scheduler::get_io_service"]}
{"id": "C56", "title": "Connection timers", "statement": "A timer that is cancelled before it fires never cancels the connection. Restarting an active timer does not cancel the connection early. (Second half violated: the aborted wait of the first start is treated as a timeout.)", "quantifier": "every interleaving of start, cancel and expiry", "why_tests_cant": "timing", "anchors": ["src/tcp_timer.cpp"]}
{"id": "C57", "title": "Plug-in lookup finds the most specific plug-in", "statement": "plugin_manager::find returns the plug-in with the longest identifier that equals the resource or is an ancestor of it. (Violated: the search stops early at unrelated identifiers of equal length.)", "quantifier": "every set of identifiers and every resource", "why_tests_cant": "all sets", "anchors": ["include/pion/plugin_manager.hpp: find"]}
{"id": "C58", "title": "Plug-in objects are destroyed exactly once", "statement": "Over any sequence of add, load, replace, remove and clear every object handed to the manager is destroyed exactly once, not before it is removed, and get never returns a destroyed object. (Violated by add under an identifier in use: the object is never stored nor destroyed.)", "quantifier": "every operation history", "why_tests_cant": "all histories", "anchors": ["include/pion/plugin_manager.hpp"]}
{"id": "C59", "title": "Plug-in libraries stay loaded while used", "statement": "A shared library is unloaded exactly when its last reference is released; a copied or assigned handle keeps it loaded. (Violated by self-assignment, which closes the library.)", "quantifier": "every history of open, copy, assign and release", "why_tests_cant": "all histories", "anchors": ["src/plugin.cpp: open, open_file, release_data, grab_data"]}
{"id": "C60", "title": "Plug-in instance pointers destroy once", "statement": "plugin_instance_ptr destroys each created instance exactly once. (Violated: reset leaves the pointer set, so the next reset, create or destructor destroys the instance again.)", "quantifier": "every sequence of create, reset and destruction", "why_tests_cant": "all sequences", "anchors": ["include/pion/plugin.hpp: plugin_instance_ptr"]}
{"id": "C61", "title": "Files are served only from the configured directory", "statement": "FileService never opens, writes or deletes a file that is outside its configured directory. (Violated: the check is a string prefix test, so a sibling directory whose name extends the configured one is accepted.)", "quantifier": "every configured directory and every requested path", "why_tests_cant": "all paths incl. .. and escapes", "anchors": ["services/FileService.cpp: operator()", "include/pion/http/plugin_service.hpp"]}
{"id": "C62", "title": "File transfer is complete and in bounds", "statement": "Sending a file that is readable and does not change meanwhile in chunks transmits exactly the file's bytes in order, each chunk at most the configured maximum, and never reads outside the file contents or the transfer buffer.", "quantifier": "every file size, chunk size and content", "why_tests_cant": "all sizes", "anchors": ["services/FileService.cpp: DiskFileSender::send, handle_write"]}
{"id": "C63", "title": "Read-only file services never change files", "statement": "If the service is not writable, no request changes the file system; a request with a method other than GET and HEAD gets 405 (POST, PUT, DELETE) or 501, or 403 or 404 if there is no file under its name.", "quantifier": "every request", "why_tests_cant": "all requests", "anchors": ["services/FileService.cpp: operator()"]}
{"id": "C64", "title": "File cache coherence", "statement": "With update checking enabled, a request is answered with the content the file had at its last modification time and size; with caching disabled with the current content.", "quantifier": "every history of file changes and requests", "why_tests_cant": "all histories", "anchors": ["services/FileService.cpp: DiskFile::checkUpdated, operator()"]}
{"id": "C65", "title": "SPDY frame recognition", "statement": "A frame is recognised as control frame only if its control bit is set, its version is accepted and its type is a defined control type; data frames never match a control type.", "quantifier": "every 8-byte frame header", "why_tests_cant": "2^64 headers", "anchors": ["src/spdy_parser.cpp: is_spdy_control_frame, get_spdy_frame_type, populate_frame"]}
{"id": "C66", "title": "SPDY parsing stays inside the packet", "statement": "Parsing a SPDY packet never reads beyond the packet. (Violated: declared lengths are not compared with the bytes present, and remaining-length arithmetic wraps.)", "quantifier": "every packet", "why_tests_cant": "all packets; reads past the end are silent", "anchors": ["src/spdy_parser.cpp: parse_spdy_frame, populate_frame, parse_header_payload, parse_spdy_goaway_frame"]}
{"id": "C67", "title": "TCP stream output", "statement": "Bytes written to a tcp::stream through any mix of single characters, blocks and flushes arrive on the connection in order without loss or duplication, as long as no write fails, and at most the buffer size stays unsent.", "quantifier": "every sequence of write operations", "why_tests_cant": "all sequences and sizes around the 8191-byte buffer", "anchors": ["include/pion/tcp/stream.hpp: overflow, xsputn, flush_output"]}
{"id": "C68", "title": "TCP stream output after an error", "statement": "After a failed write the stream never touches memory outside its buffers. (Violated: a failed overflow leaves the write pointer one past its limit; the next overflow writes outside the buffer.)", "quantifier": "every sequence of writes and failures", "why_tests_cant": "error paths", "anchors": ["include/pion/tcp/stream.hpp: overflow, xsputn"]}
{"id": "C69", "title": "TCP stream input", "statement": "Bytes read from a tcp::stream through any mix of character and block reads are exactly the bytes received, in order, for every segmentation; up to ten characters can be put back. (Second half violated after the connection reported an error: the characters put back can be wrong.)", "quantifier": "every read sequence and segmentation", "why_tests_cant": "all sequences", "anchors": ["include/pion/tcp/stream.hpp: underflow, xsgetn"]}
{"id": "C70", "title": "Service configuration file", "statement": "The configuration loader executes the commands of the file in order, one per line, ignoring comments and blank lines, and rejects malformed lines. (Violated for a last line without line terminator, which is ignored silently.)", "quantifier": "every file content", "why_tests_cant": "all contents", "anchors": ["src/http_plugin_server.cpp: load_service_config"]}
{"id": "C71", "title": "URI parsing", "statement": "For every scheme, host, optional port and path of legal characters, parse_uri splits the URI into exactly these parts; ports above 65535 are rejected; every URI that is accepted is composed of the parts told. (Violated: a port above 65535 is truncated to 16 bits, a URI without path leaves the query of before, and a URI without scheme with :// behind its host is read with another host.)", "quantifier": "every URI", "why_tests_cant": "all strings", "anchors": ["src/http_parser.cpp: parse_uri"]}
{"id": "C72", "title": "Multipart forms", "statement": "For every list of text fields, the multipart/form-data body built from them is parsed back to the same names and values, and no input makes the parser read outside the body. (Second half violated by a boundary directly after the part header.)", "quantifier": "every list of fields and every body", "why_tests_cant": "all bodies", "anchors": ["src/http_parser.cpp: parse_multipart_form_data"]}
{"id": "C73", "title": "Forwarded-for extraction", "statement": "parse_forwarded_for returns a public IPv4 address present in the header whenever it reports success, never a private one.", "quantifier": "every header value", "why_tests_cant": "all strings", "anchors": ["src/http_parser.cpp: parse_forwarded_for"]}
{"id": "C74", "title": "Bytes missing from a capture", "statement": "When a monitoring client reports missing bytes of a body, the bytes received keep their offsets, a dummy byte stands for each missing one, the message completes at the right offset and its status tells that data is missing; no uninitialised content is exposed. (Violated when the body is longer than the maximum content length: the content of the completed message is uninitialised memory; with a payload handler missing bytes are not counted.)", "quantifier": "every position, size and number of gaps", "why_tests_cant": "all gaps", "anchors": ["src/http_parser.cpp: parse_missing_data, compute_msg_status"]}
{"id": "C75", "title": "Response framing by request method and status", "statement": "For responses to HEAD and with status 1xx, 204, 205 and 304 the parser never consumes body bytes; other responses follow Content-Length, chunking or read-until-close. (Violated for the first if they say they are chunked: then they are waited for and consumed as chunks.)", "quantifier": "every response and request method", "why_tests_cant": "all combinations", "anchors": ["include/pion/http/response.hpp: is_content_length_implied, update_request_info", "src/http_parser.cpp: finish_header_parsing"]}
{"id": "C76", "title": "Log service keeps the newest entries", "statement": "After any sequence of log events the log service shows exactly the newest min(n, maximum) events in order. (Violated for the largest limit, for which the count of events wraps and nothing is ever dropped; a lowered limit is obeyed from the next event on.)", "quantifier": "every sequence of events", "why_tests_cant": "all sequences", "anchors": ["services/LogService.cpp: addLogString"]}
{"id": "C77", "title": "Floating point serialisation", "statement": "Reading back the bytes written for a value gives the value, for every finite normal number of the format (32, 64 and 128 bit).", "quantifier": "every normal value", "why_tests_cant": "2^32 and more values", "anchors": ["src/algorithm.cpp: float_from_bytes, float_to_bytes"]}
{"id": "C78", "title": "Process shutdown is never missed", "statement": "A thread waiting for process shutdown returns after shutdown was requested, whether the request came before or during the wait.", "quantifier": "every interleaving", "why_tests_cant": "lost wake-ups", "anchors": ["src/process.cpp: shutdown, wait_for_shutdown"]}
{"id": "C79", "title": "XML encoding yields valid UTF-8", "statement": "The output of xml_encode is always valid UTF-8. (Violated: overlong three- and four-byte forms, surrogates and code points above 10FFFF pass.)", "quantifier": "every byte string", "why_tests_cant": "all byte sequences", "anchors": ["src/algorithm.cpp: algorithm::xml_encode"]}
{"id": "C80", "title": "Form parsing is exactly the documented grammar", "statement": "parse_url_encoded accepts exactly the bodies without control characters (other than tab and line breaks) and over-long parts, and for accepted bodies yields exactly the URL-decoded name/value pairs of the fields separated by '&', a field with a comma-separated list giving one pair per value and a field with an empty name giving none.", "quantifier": "every byte string", "why_tests_cant": "all byte strings; a state machine with fall-through paths", "anchors": ["src/http_parser.cpp: parse_url_encoded"]}
{"id": "C81", "title": "Other line endings", "statement": "A message head whose lines end in any mix of CR LF, LF, CR or LF CR is read exactly like the same head with CR LF, and the bytes that follow the empty line are left for the body or the next message.", "quantifier": "every head, every choice of line ending per line, every following byte string for which the empty line is recognisable", "why_tests_cant": "combinatorial in the number of lines; one missed byte shifts the body", "anchors": ["src/http_parser.cpp: parse_headers"]}
{"id": "C82", "title": "The first line follows the fields", "statement": "For every history of calls on a message, including earlier sends, the first line that is sent is made from the current method, resource, query string, version, status code and status message. (Violated by change_resource after the first line was made: the old resource is sent.)", "quantifier": "every history of calls", "why_tests_cant": "all histories; a cached string", "anchors": ["include/pion/http/message.hpp: get_first_line, clear_first_line", "include/pion/http/request.hpp: update_first_line, change_resource", "include/pion/http/response.hpp: update_first_line"]}
{"id": "C83", "title": "Sending a message again sends the same bytes", "statement": "A message that is sent twice is sent with the same bytes both times. (Violated for messages with cookies: each send adds the cookie headers again.)", "quantifier": "every message", "why_tests_cant": "all messages; hidden state", "anchors": ["include/pion/http/message.hpp: prepare_buffers_for_send, append_cookie_headers", "include/pion/http/request.hpp, response.hpp: append_cookie_headers"]}
{"id": "C84", "title": "Requests written in chunks are read back", "statement": "A request written with request_writer by send_chunk and send_final_chunk is read back with its content. (Violated with the default settings: the body is sent in chunked format without a Transfer-Encoding header.)", "quantifier": "every sequence of writes", "why_tests_cant": "interplay of two flags", "anchors": ["include/pion/http/request_writer.hpp", "include/pion/http/writer.hpp: supports_chunked_messages", "include/pion/http/message.hpp: get_chunks_supported"]}
{"id": "C85", "title": "Copies of payload are freed", "statement": "The copies that a writer makes of binary payload are freed at the latest when the writer is destroyed. (Violated: clear() drops them without freeing.)", "quantifier": "every sequence of writer calls", "why_tests_cant": "memory leaks are not observable in tests of results", "anchors": ["include/pion/http/writer.hpp: binary_cache_t, clear"]}
{"id": "C86", "title": "A response without body leaves nothing behind", "statement": "A response to HEAD, or with a status that allows no body, is not followed by body bytes, so that the next response on the connection is found. (Violated: a payload written by the handler is sent all the same.)", "quantifier": "every response and handler", "why_tests_cant": "all handlers and statuses; effect on the next response", "anchors": ["include/pion/http/writer.hpp: send_more_data", "include/pion/http/response.hpp: update_request_info", "include/pion/http/response_writer.hpp"]}
{"id": "C87", "title": "Successive blocking receives", "statement": "Calls of receive one after the other on a connection return the messages the peer sent, in order, none lost or repeated, however the bytes are cut into reads.", "quantifier": "every sequence of messages that keep the connection open, every segmentation", "why_tests_cant": "all sequences and cuts, bytes left over in the read buffer", "anchors": ["src/http_message.cpp: message::receive", "include/pion/tcp/connection.hpp: save_read_pos, load_read_pos"]}
{"id": "C88", "title": "Answers to logins carry only the asked redirect", "statement": "The response to a login or logout tells the client exactly the url that was asked for and the session cookie, whatever the url is. (Violated: the url is decoded and put into the Location header as it is, so an escaped line break adds headers of the choice of whoever made the link.)", "quantifier": "every request, url and client segmentation", "why_tests_cant": "needs all urls and the composition of parser, authentication, writer and client", "anchors": ["src/http_cookie_auth.cpp: process_login, handle_redirection", "include/pion/http/message.hpp: add_header"]}
{"id": "C89", "title": "Right passwords are always accepted", "statement": "A request with the Basic credentials of an existing user (whose name is not empty and has no colon) in its only Authorization header is let through as that user, after every history of requests and user changes.", "quantifier": "every history, user name and password", "why_tests_cant": "all histories, cache included", "anchors": ["src/http_basic_auth.cpp: handle_request, parse_credentials"]}
{"id": "C90", "title": "Authentication gives a verdict for every request", "statement": "Basic authentication accepts or refuses every request, whatever bytes the Authorization header has. (Violated: a byte over 127 in the credentials is used as a negative index before anybody is authenticated.)", "quantifier": "every request", "why_tests_cant": "undefined behaviour need not show in a test", "anchors": ["src/http_basic_auth.cpp: parse_credentials", "src/algorithm.cpp: base64_decode"]}
{"id": "C91", "title": "Removing a user ends the sessions of the user", "statement": "After a user was removed or the password changed, requests with a session begun before are refused. (Violated: the session table keeps the user object.)", "quantifier": "every history", "why_tests_cant": "all histories", "anchors": ["src/http_cookie_auth.cpp: handle_request", "include/pion/user.hpp: remove_user"]}
{"id": "C92", "title": "join returns after stop", "statement": "After the stop that ended listening has returned, every thread that called join on the server returns from it, whether it called before or after.", "quantifier": "every interleaving of start, stop, join, accept, handling and finish", "why_tests_cant": "lost wake-ups need particular interleavings", "anchors": ["src/tcp_server.cpp: join, stop"]}
{"id": "C93", "title": "A server is one user of its scheduler while it listens", "statement": "When all calls of start and stop have told the scheduler, the scheduler counts exactly one active user for a listening server and none for a stopped one, and the count never goes below zero. (Second half violated: start adds the user after releasing the mutex, and a stop in between makes the count 2^32-1.)", "quantifier": "every interleaving of start and stop", "why_tests_cant": "needs a specific interleaving", "anchors": ["src/tcp_server.cpp: start, stop", "src/scheduler.cpp: add_active_user, remove_active_user"]}
{"id": "C94", "title": "The scheduler's own timer runs at its rate", "statement": "A scheduler service that is kept alive by its timer wakes up for it at most once per start and once every five seconds. (Violated for the single-service scheduler after a restart: the wait left from the first run and the new one end each other without pause.)", "quantifier": "every sequence of starts, shutdowns, timer expiries and passing time", "why_tests_cant": "needs unbounded runs; a busy loop has no wrong result", "anchors": ["src/scheduler.cpp: keep_running, startup", "include/pion/scheduler.hpp: finish_services"]}
{"id": "C95", "title": "Posting uses a live service", "statement": "post on a scheduler with at least one thread never uses a service that does not exist. (Violated for the one-to-one scheduler: shutdown destroys the services between the choice and the use.)", "quantifier": "every interleaving of post with startup and shutdown", "why_tests_cant": "race", "anchors": ["include/pion/scheduler.hpp: post, get_io_service, finish_services"]}
{"id": "C96", "title": "Scheduler join returns after shutdown", "statement": "When the scheduler has stopped, every thread that called its join, before or after, returns.", "quantifier": "every interleaving", "why_tests_cant": "lost wake-ups", "anchors": ["src/scheduler.cpp: join, shutdown"]}
{"id": "C97", "title": "Opening a plug-in returns", "statement": "plugin::open always returns or throws. (Violated: opening a name that is already loaded with a handle that is open waits for ever for the mutex that the same call holds.)", "quantifier": "every history of handles", "why_tests_cant": "needs a particular history; a test would hang", "anchors": ["src/plugin.cpp: open, release_data"]}
{"id": "C98", "title": "Plug-in objects are destroyed the way they were made", "statement": "An object made by a library is destroyed by the destroy function of that library, and an object given to the manager by the user is deleted. (Violated by replace under an identifier that was loaded: the new object is passed to the library's destroy function.)", "quantifier": "every history of the manager", "why_tests_cant": "all histories", "anchors": ["include/pion/plugin_manager.hpp: replace, remove, clear"]}
{"id": "C99", "title": "The sending of a file always ends", "statement": "Every request for a file is finished, whatever becomes of the file while it is sent: the connection is answered or closed. (Violated: if the file cannot be opened or is shorter than it was, the sender gives up without finishing the connection, which then stays with the server.)", "quantifier": "every file, chunk size, and every change of the file during the transfer", "why_tests_cant": "all changes at all times", "anchors": ["services/FileService.cpp: DiskFileSender::send, handle_write"]}
{"id": "C100", "title": "Stream operations wait for their own completion", "statement": "A write, flush or read of a tcp::stream returns as soon as, and only after, the operation it started on the connection has finished, and with the result of that operation. (Violated: the wait has no predicate, so a spurious wake-up makes the call return early with a result of zero bytes, and a later call can be given the result of an earlier one.)", "quantifier": "every interleaving of the client thread, completion handlers and spurious wake-ups", "why_tests_cant": "spurious wake-ups cannot be provoked by tests", "anchors": ["include/pion/tcp/stream.hpp: flush_output, underflow, xsputn, operation_finished"]}
{"id": "C101", "title": "The echo page mirrors the request", "statement": "The page that the echo service sends for a request (of a version other than 0.x, to a client that accepts content of this size) tells exactly its method, resources, query string, version, content length, every header, query parameter and cookie, the content byte for byte, and the authenticated user.", "quantifier": "every request, of any content and number of headers, and every segmentation of the answer", "why_tests_cant": "all requests; mixture of copied, referenced and streamed text in one answer", "anchors": ["services/EchoService.cpp: EchoService::operator(), writeDictionaryTerm"]}
{"id": "C102", "title": "The cookie service answers with the asked cookie only", "statement": "The answer of the cookie service tells the client to set, or delete, exactly the cookie named in the request, has no other header than those of the service, and shows request text as text. (Violated: query values are decoded and put as they are into the Set-Cookie header and the page, so an escaped line break adds headers and markup is shown as markup.)", "quantifier": "every request", "why_tests_cant": "all requests", "anchors": ["services/CookieService.cpp: CookieService::operator()", "include/pion/http/response.hpp: set_cookie, delete_cookie"]}
{"id": "C103", "title": "What a configuration file protects is never open", "statement": "A service loaded from a configuration file that the file restricts cannot be reached without authentication. (Violated: authentication is installed after the whole file was read. If a later line is malformed or a service throws, the load fails and the services loaded before stay, with no authentication installed.)", "quantifier": "every file and every point at which loading can fail", "why_tests_cant": "needs the failure of a later line; all files", "anchors": ["src/http_plugin_server.cpp: load_service_config"]}
{"id": "C104", "title": "Every restriction of a configuration file is in force", "statement": "After a configuration file was loaded without error, every restriction and user it names is part of the installed authentication. (Violated: a second auth command silently drops those before it; a file without auth command switches off authentication set before.)", "quantifier": "every file", "why_tests_cant": "all files", "anchors": ["src/http_plugin_server.cpp: load_service_config"]}
{"id": "C105", "title": "Frames of a SPDY packet", "statement": "Parsing a packet that holds several complete frames reports every frame, in order: data frames with their stream, payload and FIN flag, header frames with their stream and the names and values sent (the first value of a repeated name), each header block decompressed in the context of the side that sent it; every result but the last is indeterminate, the last is true. (Violated for data frames of streams from 2^24 on, and for version 2 GOAWAY frames, for which the first bytes of the next frame are taken for a status.)", "quantifier": "every list of frames, of any length, with any payloads, and every compression", "why_tests_cant": "unboundedly many packets, interleavings and payloads", "anchors": ["src/spdy_parser.cpp: parse, parse_spdy_frame, populate_frame", "src/spdy_parser.cpp: parse_header_payload", "src/spdy_decompressor.cpp: decompress"]}
{"id": "C106", "title": "SPDY headers come from their frame", "statement": "The names and values reported for a header frame were sent in that frame's header block. (Violated: a block that announces more than it contains is completed with bytes that an earlier block, possibly of another stream, left in the buffer.)", "quantifier": "every packet, every earlier traffic on the connection", "why_tests_cant": "needs specific earlier traffic; all packets", "anchors": ["src/spdy_parser.cpp: parse_header_payload", "src/spdy_decompressor.cpp: decompress, spdy_decompress_header"]}
{"id": "C107", "title": "A finished SPDY frame is whole", "statement": "If parse returns true, the frame it reports lies completely in the packet; if it returns indeterminate, the frame is complete and the read pointer and the length left are those of the rest of the packet. (The first half is violated: the declared length is reported however little of the frame is there.)", "quantifier": "every packet", "why_tests_cant": "all packets", "anchors": ["src/spdy_parser.cpp: parse, parse_spdy_frame, populate_frame"]}
{"id": "C108", "title": "No SPDY packet ends the process", "statement": "Parsing a packet ends in a result or an error code, never in an abort. (Violated in builds with assertions: data frames of stream 0, pings with number 0 and other control frames with first word 0.)", "quantifier": "every packet", "why_tests_cant": "2^96 headers", "anchors": ["src/spdy_parser.cpp: parse_spdy_frame, BOOST_ASSERT(stream_id != 0)", "src/spdy_decompressor.cpp: decompress"]}
{"id": "C109", "title": "Writing a floating point number ends", "statement": "Storing a floating point number in a buffer returns, for every number including infinities and NaNs, and touches only the bytes of the format.", "quantifier": "every value of the platform's long double, every format with up to 15 exponent bits, every buffer large enough, any number of loop iterations", "why_tests_cant": "A test that hangs is not a verdict, and the number of iterations depends on the value", "anchors": ["src/algorithm.cpp: float_from_bytes, float_to_bytes", "include/pion/algorithm.hpp: to_float, from_float, to_double, from_double, to_long_double, from_long_double"]}
{"id": "C110", "title": "Subnormal numbers and zero", "statement": "Zero and the subnormal numbers of a format are read back after being stored, and bytes of a subnormal number are read as IEEE 754 has it.", "quantifier": "every zero and subnormal value of every format narrower than the platform's long double, every buffer", "why_tests_cant": "2^24 and more values", "anchors": ["src/algorithm.cpp: float_from_bytes, float_to_bytes", "include/pion/algorithm.hpp: to_float, from_float, to_double, from_double, to_long_double, from_long_double"]}
{"id": "C111", "title": "Numbers the format cannot hold", "statement": "Storing a number that needs more fraction bits than the format has stores the nearest number of the format, and a number too large for the format is stored as an infinity.", "quantifier": "every finite value, every format, every buffer", "why_tests_cant": "The values are all long doubles; only a proof covers rounding of all of them", "anchors": ["src/algorithm.cpp: float_from_bytes, float_to_bytes"]}
{"id": "C112", "title": "Bytes of infinities and NaNs", "statement": "Bytes that IEEE 754 defines as an infinity or a NaN are read as that.", "quantifier": "every sign and fraction, every format, every platform", "why_tests_cant": "2^24 bit patterns and more", "anchors": ["src/algorithm.cpp: float_from_bytes, float_to_bytes", "include/pion/algorithm.hpp: to_float, from_float, to_double, from_double, to_long_double, from_long_double"]}
{"id": "C113", "title": "Error pages contain no markup of the request", "statement": "The pages with which the server (400, 403, 404, 405, 500), basic authentication (401) and the file service (201, 403, 404, 405, 500, 501) answer are read by the client with the status code of the error; the tags of the page are always the same whatever the request was, and the resource, method or error text is shown as text.", "quantifier": "every request (resource and method arbitrary bytes), every error text, every list of allowed methods and realm, every HTTP version but 0.x, every state and configuration of the file service and of the disk, every segmentation of the response at the client", "why_tests_cant": "markup can come from any byte of a resource, method or exception text, and escaping interacts with UTF-8 decoding; tests try a few strings", "anchors": ["src/http_server.cpp handle_bad_request, handle_not_found_request, handle_server_error, handle_forbidden_request, handle_method_not_allowed", "src/http_basic_auth.cpp handle_unauthorized", "services/FileService.cpp operator(), sendNotFoundResponse"]}
{"id": "C114", "title": "Answers to HEAD have no content", "statement": "The answer to a HEAD request consists of a header only, so that the next response on the connection is read from its beginning.", "quantifier": "every HEAD request, every default error page of the server, every state of the file service and of the disk, every response that follows", "why_tests_cant": "the fault shows only in the response after the one to HEAD on a kept-alive connection", "anchors": ["src/http_server.cpp handle_not_found_request, handle_server_error, handle_forbidden_request, handle_method_not_allowed, handle_bad_request", "services/FileService.cpp operator(), sendNotFoundResponse"]}
{"id": "C115", "title": "Rights are given back as they were", "statement": "When every admin_rights object of a process has been released or has failed to get rights, the process has the user ids it had before the first was made.", "quantifier": "every number of objects, every interleaving of their construction and release in any number of threads, every real, effective and saved user id of the process", "why_tests_cant": "depends on the user the process runs as and on interleavings of threads; a test runs as one user", "anchors": ["include/pion/admin_rights.hpp admin_rights, m_user_id", "src/admin_rights.cpp admin_rights::admin_rights, release", "src/tcp_server.cpp server::start"]}
{"id": "C116", "title": "Administrative rights are held by one at a time", "statement": "At most one admin_rights object has rights at any time; the process is the super user as long as one has them; and an object that waits gets its turn when the one before it is released or fails.", "quantifier": "every number of objects and threads, every interleaving, every set of ids of the process, other changes of the user id in between", "why_tests_cant": "mutual exclusion and progress are claims about all interleavings", "anchors": ["include/pion/admin_rights.hpp m_lock, m_mutex", "src/admin_rights.cpp admin_rights::admin_rights, release"]}
{"id": "C117", "title": "Running as a user", "statement": "run_as_user tells the id under which the process runs afterwards, or -1 if it runs as before; the id it tells is that of the user named, and the process goes on with it.", "quantifier": "every user name, every user file, every set of ids of the process, every interleaving with objects that have rights", "why_tests_cant": "needs a process with the rights to change ids, every content of the user file and concurrent holders of rights", "anchors": ["src/admin_rights.cpp run_as_user, run_as_group, find_system_id"]}
{"id": "C118", "title": "Ids of users and groups are looked up as the file lists them", "statement": "A name is resolved to the number in the third field of its first line in the system file; a name the file does not list has no id; a number stands for itself.", "quantifier": "every name, every content of the file", "why_tests_cant": "the file belongs to the system; its lines and numbers have any form", "anchors": ["src/admin_rights.cpp find_system_id"]}
{"id": "C119", "title": "A server can be started again after a failed start", "statement": "If start failed because the system refused (port in use, no socket, no rights) a later start succeeds once the system does not refuse any more.", "quantifier": "every sequence of starts and stops, every answer of the system to the calls of each start", "why_tests_cant": "needs a system that refuses one of several calls, and the histories of calls are unbounded", "anchors": ["src/tcp_server.cpp server::start, server::stop"]}
{"id": "C120", "title": "A truncated message is not taken for a whole one", "statement": "When a stream holds only a beginning of a message (nothing, part of the header, part of the content or of the chunks), read reports an error.", "quantifier": "every message that the parser takes for whole (any headers, any body encoding), every proper beginning of it, requests and responses, every content limit and parser setting", "why_tests_cant": "a truncation can be at any byte of any message; the parser has dozens of states", "anchors": ["src/http_message.cpp message::read", "include/pion/http/parser.hpp check_premature_eof"]}
{"id": "C121", "title": "Messages written one after another are read one after another", "statement": "From a stream that holds messages one after another, successive calls of read return each of them by itself, in their order and with nothing of their neighbours, whatever objects they are read into, leave what follows untouched, and report an error when there is none left.", "quantifier": "every number of messages, every message that is whole by itself, everything that follows", "why_tests_cant": "the claim is about all sequences of messages and about what is left between two calls", "anchors": ["src/http_message.cpp message::read", "src/http_message.cpp message::write"]}
{"id": "C122", "title": "No error means a message was read", "statement": "If read reports no error then it has read a message: the message returned is valid and is the one whose bytes have been taken from the stream.", "quantifier": "every stream in every state, every content, every parser setting", "why_tests_cant": "the content of the stream is arbitrary; the claim is the converse of what examples show", "anchors": ["src/http_message.cpp message::read"]}
{"id": "C123", "title": "A response to HEAD is received without waiting for content", "statement": "A response object that was made for a HEAD request is received when its header has come, without content, and what comes next is left for the next response.", "quantifier": "every response header, every Content-Length, every segmentation, everything that follows, the asynchronous reader and the blocking receive", "why_tests_cant": "the fault shows as a call that never returns, or in the response after the one to HEAD", "anchors": ["include/pion/http/response.hpp response, clear, is_content_length_implied", "src/http_message.cpp message::receive", "include/pion/http/response_reader.hpp response_reader"]}
{"id": "C124", "title": "write reports what the stream took", "statement": "write reports no error exactly if the stream took the whole message; otherwise the stream has a beginning of it, not shorter than the count returned.", "quantifier": "every message, every stream and every point at which it stops taking bytes", "why_tests_cant": "needs a stream that fails at each possible byte", "anchors": ["src/http_message.cpp message::write"]}
{"id": "C125", "title": "Conflicting lengths are refused", "statement": "A message with several Content-Length headers that do not agree is refused. (Violated: it is accepted; one of the headers is used, and which one depends on how the implementation's hash table orders equal names.)", "quantifier": "every legal head with any number of Content-Length headers of decimal numbers within the limit, requests and responses, every body and what follows it, every segmentation, every order of equal names in the table", "why_tests_cant": "which header is found is decided by the hash table of the standard library, so a test sees one implementation's choice only; the number of headers is unbounded", "anchors": ["src/http_parser.cpp parser::finish_header_parsing", "include/pion/http/message.hpp update_content_length_using_header"]}
{"id": "C126", "title": "Unknown transfer codings are refused", "statement": "A message with a transfer coding that the library cannot undo is refused. (Violated: a coding without \"chunked\" in it is ignored and the content delivered as it came; a value with \"chunked\" anywhere in it is read as chunks.)", "quantifier": "every legal head with a Transfer-Encoding value of any characters, every Content-Length or chunk sequence, every segmentation", "why_tests_cant": "coding names and their lists are unbounded text", "anchors": ["include/pion/http/message.hpp update_transfer_encoding_using_header", "src/http_message.cpp REGEX_ICASE_CHUNKED"]}
{"id": "C127", "title": "First lines are read as written or refused", "statement": "A request or status line whose version is not \"HTTP/\" and two numbers, or whose numbers do not fit, is refused. (Violated: the numbers are read modulo 65536, blanks between the digits of the last number are dropped, and in a request the H may be a CR or LF; a request line that ends behind the blank after the resource, which the code means to accept as HTTP 0.9, is refused.)", "quantifier": "every legal head, every way to write its version and status code with digits of the same value modulo 65536, any number of digits and blanks, requests and responses, whatever follows the head", "why_tests_cant": "numbers have unbounded digits; wrap-around and letter case combine with every method, resource and header list", "anchors": ["src/http_parser.cpp parser::parse_headers", "include/pion/http/message.hpp set_version_major"]}
{"id": "C128", "title": "Uploaded files can be read back from their text form", "statement": "The text form that a file of a multipart form is stored in (binary_2base64) is read back by base64_2binary to exactly the same bytes and type, the size reported is the buffer size needed, and a buffer of that size is enough. (Violated for the size: a buffer of the reported size is never enough; and for types that contain the mark of the text form.)", "quantifier": "all byte strings, all types, all buffer sizes", "why_tests_cant": "all byte values, lengths in each residue modulo 3 and types chosen by the client", "anchors": ["src/http_parser.cpp parser::binary_2base64", "src/http_parser.cpp parser::base64_2binary", "include/pion/http/parser.hpp base64_2binary"]}
{"id": "C129", "title": "Web services are not destroyed while in use", "statement": "A web service given to a server is destroyed once, nothing is called on it afterwards, and it is not destroyed before the calls it got have returned. (Violated: one object given for two resources is destroyed twice; clear does not wait for a call that finished its connection before it returned.)", "quantifier": "all sequences of adding, loading, removing, starting, stopping, clearing and requests, any number of services and calls in progress", "why_tests_cant": "the sequences and the interleavings of requests with clear are unbounded", "anchors": ["src/http_plugin_server.cpp plugin_server::add_service, load_service", "include/pion/http/plugin_server.hpp clear, before_starting, after_stopping", "include/pion/plugin_manager.hpp add, clear", "src/tcp_server.cpp server::stop"]}
{"id": "C130", "title": "Web services are started and stopped in pairs", "statement": "Each web service sees start and stop alternate, beginning with start, and gets requests only between them. (Violated when the port is taken, when start or stop of a service throws, and for services added to a server that listens; proved otherwise.)", "quantifier": "all sequences of calls and requests, which services throw, which starts find the port taken", "why_tests_cant": "failures of start and stop combine with any history of the server", "anchors": ["include/pion/http/plugin_server.hpp before_starting, after_stopping", "include/pion/plugin_manager.hpp run", "src/tcp_server.cpp server::start, stop"]}
{"id": "C131", "title": "Options and requests of a resource reach the same service", "statement": "The service that gets the options set for a resource also gets the requests for it, and a service just added gets the requests for its resource. (Violated: after remove_resource and add_service the old service gets the options; a second add_service for a name is ignored without an error.)", "quantifier": "all sequences of calls, all names", "why_tests_cant": "two tables are kept in step by convention only; histories are unbounded", "anchors": ["src/http_plugin_server.cpp plugin_server::set_service_option, add_service", "include/pion/plugin_manager.hpp add, run", "src/http_server.cpp server::add_resource, find_request_handler"]}
{"id": "C132", "title": "A web service knows its resource when it is called", "statement": "A web service that gets a request was told the name it was given for before, and the resource of the request is that name or below it. (Violated while load_service runs, and for names with two slashes at the end.)", "quantifier": "all sequences of calls and requests, loading interleaved with requests, all names", "why_tests_cant": "the interleaving of load_service with requests is not under control of a test", "anchors": ["src/http_plugin_server.cpp plugin_server::load_service, add_service", "include/pion/http/plugin_service.hpp set_resource, get_relative_resource"]}
{"id": "C133", "title": "Stopping a server comes to its end", "statement": "A call of stop that waits for connections returns once nobody but the server refers to a connection, and can always come to its end. (Violated: a handler that calls stop of its own server waits for its own connection, for ever, whatever the other threads do.)", "quantifier": "all reachable states of a server with any number of threads and connections, all continuations", "why_tests_cant": "that a call never returns is a statement about all infinite executions", "anchors": ["src/tcp_server.cpp server::stop, prune_connections, finish_connection", "include/pion/tcp/server.hpp"]}
{"id": "C134", "title": "Dates in headers stand for the time given", "statement": "The date written for a time names the day, hour, minute and second of that time in UTC, so different times have different dates, and a file is reported as not modified only if its time of change is the time the client named. (Violated for times whose year does not fit a struct tm, where a null pointer is used; when the program has set a locale with other names of days and months; and the date is shorter than the standard's before the year 1000.)", "quantifier": "all times a time_t can hold, all locales, all requests to the file service", "why_tests_cant": "there are 2^64 times, and the calendar is a function of all of them", "anchors": ["src/http_types.cpp types::get_date_string", "services/FileService.cpp FileService::operator()", "services/FileService.hpp DiskFile"]}
{"id": "C135", "title": "Look-ups by hash find the values added", "statement": "A look-up of a header, query parameter or cookie finds the values added under names that differ from it in the case of letters only, and no others, however the hash table has grown. (Violated when the program sets another locale between adding and looking up, and in locales that treat ASCII letters differently, as the Turkish one.)", "quantifier": "all sequences of additions, changes, deletions and rehashes, all hash functions, all names, all locales", "why_tests_cant": "the bucket an entry is in depends on the whole history and on the hash function of the library", "anchors": ["include/pion/hash_map.hpp iequal_to, ihash, ihash_multimap", "include/pion/http/message.hpp change_value, delete_value, get_value"]}
{"id": "C136", "title": "Answers to uploads and deletions tell what happened", "statement": "An answer of success to PUT, POST or DELETE means that the file now has the data, or is gone; an answer of failure means that nothing was changed. (Violated: a file that may not be written and a full disk are answered with 204 and 201; the text of an answer with status 500 begins with the page for 201.)", "quantifier": "all states of the disk before and after, all options, all requests, all histories of the service", "why_tests_cant": "failures of the disk at every point of every request cannot be enumerated by a test", "anchors": ["services/FileService.cpp FileService::operator()"]}
{"id": "C137", "title": "What was uploaded is what is served next", "statement": "After a file was written by PUT or POST, a GET for the same resource gets what is in the file. (Violated: a change in the same second that keeps the length is not noticed; with caching 2 the old content is sent for ever; with scan 1 and 3 a new file is not found.)", "quantifier": "all histories of the service, all contents and times of files, all options", "why_tests_cant": "which earlier request filled the cache, and with what, is a matter of the whole history", "anchors": ["services/FileService.cpp FileService::operator()", "services/FileService.cpp DiskFile::checkUpdated"]}
{"id": "C138", "title": "What the parser accepts is read as a legal message", "statement": "Whenever the parser reports a finished message that is not a request of HTTP version 0, there is a legal first line with legal headers such that the message, its content, its validity and the bytes left unread are those of that legal head: bytes that are not HTTP are refused or have an agreed reading, never a third one. Whatever the result, the method, names of headers, resource, query string, status message and values of headers of the message, headers behind a chunked content included, contain no control characters, separators or blanks where HTTP has none, and no line breaks.", "quantifier": "every byte string, every way to cut it into pieces, requests and responses, with and without payload handler, every content maximum, every well-formed earlier content of the message object", "why_tests_cant": "the inputs that matter are those nobody thought of; tests contain the malformed heads their author knew", "anchors": ["src/http_parser.cpp: parser::parse, parser::parse_headers, parser::finish_header_parsing", "include/pion/http/parser.hpp"]}
{"id": "C139", "title": "Lines that begin with a blank continue the header before them", "statement": "A header line that begins with a blank or tab continues the value of the header before it, or the message is refused; its text never becomes a header of its own. (Violated: blanks at the beginning of a line are skipped, so a continuation that looks like a header is one, such as Host or Content-Length, while proxies that unfold the line see it as text; a line of blanks only is skipped; other continuations are refused.)", "quantifier": "every legal head with lines of blanks and indented headers anywhere between its headers, whatever follows; every continuation that does not look like a header", "why_tests_cant": "a test fixes a few positions and texts of the continuation; that every one is taken as a header needs all heads", "anchors": ["src/http_parser.cpp: parser::parse_headers (PARSE_HEADER_WHITESPACE, PARSE_HEADER_START)"]}
{"id": "C140", "title": "Blanks around a header's value are not part of it", "statement": "Blanks and tabs between the colon and the value and behind the value are not part of the value, and there need not be any. (Violated: only one blank behind the colon is dropped, others and all blanks behind the value are kept; a tab behind the colon, or a value that begins with a separator such as a slash or a quote right behind the colon, makes the parser refuse the message.)", "quantifier": "every legal request head, any number of blanks and tabs before and behind a value; every header without a blank behind the colon", "why_tests_cant": "tests use the one blank that every client sends", "anchors": ["src/http_parser.cpp: parser::parse_headers (PARSE_SPACE_BEFORE_HEADER_VALUE, PARSE_HEADER_VALUE)"]}
{"id": "C141", "title": "A request line without version is a whole request", "statement": "A request line of method and resource only (HTTP 0.9) is a whole request: parsing is finished at the end of the line, there are no headers and no content, and the bytes behind it are left unread. (Violated: that holds if the line ends in CR LF; behind a line that ends in LF the next line is taken for a header.)", "quantifier": "every method, resource and query string, whatever follows the line", "why_tests_cant": "the path is hit by no usual client; a test tries one line", "anchors": ["src/http_parser.cpp: parser::parse_headers (PARSE_URI_STEM, PARSE_URI_QUERY, PARSE_EXPECTING_NEWLINE, PARSE_EXPECTING_CR)"]}
{"id": "C142", "title": "The command line of piond means what it says", "statement": "piond takes the port, address, configuration file and key file of the last option that names them, and every plug-in directory and service option, in the order given, with an option's name ending at its first equals sign; RESOURCE and WEBSERVICE are the last two arguments. Unknown options, options without their value, service options without an equals sign, more than two names, and a line that names neither a service nor a configuration file show the usage; a directory that does not exist is reported. A port is a number from 1 to 65535 and used as typed; everything that cannot be used is reported. (Violated: port numbers are taken modulo 65536, and 0 and texts that are no numbers stand for 8080; an address that cannot be read ends the process by an exception that nobody catches.)", "quantifier": "every list of options of every length, all names, values and texts, every answer of the system about directories and addresses", "why_tests_cant": "the options interact through their order and repetition; nobody tests main", "anchors": ["utils/piond.cpp: main, argument_error"]}
{"id": "C143", "title": "piond serves what was asked, or says that it does not", "statement": "The server is started at the address and port asked for, and only after the key file was read, the service loaded and every option set, each once and in the order given, or after the configuration file was read; if one of these fails, no server is started. The status of the process tells whether a server ran; a server asked to use SSL uses it; options given are used. (Violated: after a failure the status is 0; without SSL support, -ssl only logs a message and the server is started in the clear; -o, RESOURCE and WEBSERVICE are ignored without a word next to -c.)", "quantifier": "every list of options, every set of operations that fail, builds with and without SSL support", "why_tests_cant": "it needs every step to fail in turn, in a program that has no seam for it", "anchors": ["utils/piond.cpp: main"]}
{"id": "C144", "title": "Connecting by name reaches the first address that accepts", "statement": "Connecting a connection to a host tries the addresses the name stands for in their order, stops at the first that accepts and is connected to that one; if none accepts, all were tried, the error of the last is returned and the connection is closed. After a failed connect a connection is closed, and can be connected elsewhere. (Violated: a connection that is open already is given up and the first address skipped; after a failed connect to one address is_open() says true, and connecting to an address of the other family then fails.)", "quantifier": "every list of addresses of both families, every answer of each, every earlier state of the connection", "why_tests_cant": "it needs hosts with several addresses that fail in each combination", "anchors": ["include/pion/tcp/connection.hpp: connection::connect, connection::close, connection::is_open"]}
{"id": "C145", "title": "Nothing asked to be encrypted is sent in the clear", "statement": "A stream made for SSL sends nothing in the clear, and nothing to a peer with which no handshake was completed, whatever was connected, closed, accepted or failed before; connecting or accepting on it succeeds only with the handshake. After a handshake was asked of a connection, everything it sends is encrypted. (Violated: in a build without SSL support the flag is dropped and a handshake returns success without doing anything, so all goes out in the clear; a connection that is closed and connected again sends with the session of the earlier peer.)", "quantifier": "every sequence of calls, every answer of the system and of the peers, builds with and without SSL support", "why_tests_cant": "it needs peers that fail the handshake at every point of every sequence; the build without SSL has no test that asks for it", "anchors": ["include/pion/tcp/connection.hpp: connection::connection, handshake_client, handshake_server, write, async_write, get_ssl_flag", "include/pion/tcp/stream.hpp: stream::connect, stream::accept, stream::close"]}
{"id": "C146", "title": "The services without settings always answer with their page", "statement": "Every request to the hello service is answered with status 200 and its page, every request to the service that allows nothing with status 405, its page and an Allow header; the client reads exactly this, and the next response begins right behind it. A method that is named as allowed is not refused, and HEAD is answered without content. (Violated: the service that allows nothing answers GET with 405 and names GET as allowed; the page is sent for HEAD as well and is taken for the beginning of the next response.)", "quantifier": "every method, version other than 0.x, lifecycle of the connection and segmentation of the answer; clients that accept content of this length", "why_tests_cant": "the claim is about all requests and all ways the answer is cut", "anchors": ["services/HelloService.cpp: HelloService::operator()", "services/AllowNothingService.cpp: AllowNothingService::operator()"]}
{"id": "C147", "title": "An exception tells what was attached to it", "statement": "what() of every exception of the library is the text of its class followed by the last value attached of the kind of information the class shows, whatever else was attached, and whenever; asked again it says the same. The reason why a plug-in could not be opened is told. (Violated: messages and names of arguments share a tag, as do names of directories and of symbols, so one replaces the other; what is attached after what() was called is not shown; the reason is attached to the exception, but not part of what().)", "quantifier": "every class of exception, every sequence of kinds and values attached, before and after what()", "why_tests_cant": "the confusion needs combinations that the code that throws does not use today", "anchors": ["include/pion/error.hpp: exception::what, exception::set_what_msg, error::errinfo_message, errinfo_arg_name, errinfo_dir_name, errinfo_symbol_name", "src/plugin.cpp: plugin::open_file"]}
{"id": "C148", "title": "Log output is complete and obeys the levels", "statement": "With logging to the standard streams, every event of at least the level set is written, each once, in order, with its time, level and logger, on one line; events below the level are not; warnings and worse go to the error stream, the others to the output stream. What a logger writes depends only on the level set for that logger. (Violated: the level is one for the whole process, so setting it for one logger sets it for all; text with line breaks is written as it is, so a text from a request can forge lines.)", "quantifier": "every sequence of level changes and events of every number of loggers, all names and texts", "why_tests_cant": "the level of one logger is observed through another only in sequences nobody writes as a test", "anchors": ["include/pion/logger.hpp: logger::m_priority, PION_LOG_SETLEVEL_DEBUG, PION_LOG_INFO, PION_LOG_WARN", "src/logger.cpp"]}
{"id": "C149", "title": "A plug-in asked for by name is the one found by the rules", "statement": "A plug-in that is asked for by name is taken from the first of these places at which there is a regular file: the name as it is, the name with .so, and then for each plug-in directory in the order they were added the name in it and the name with .so in it. None is found only if there is no such file. Opening by a plain name gives the plug-in of that name or throws, and it throws exactly if the plug-in is not in use yet and its file is missing or cannot be loaded. The file comes from the plug-in directories; a name does not lead out of them; the plug-in opened has the name asked for; two files are two plug-ins. (Violated: the name is tried first as a path relative to the current directory; a name with .. leads out of the directories; a name with a dot or a directory opens a plug-in of another name; two files with one name in two directories are taken for one plug-in.)", "quantifier": "every file system, every list of directories, every name and every sequence of plug-in operations before", "why_tests_cant": "depends on all layouts of directories and on what was opened before", "anchors": ["src/plugin.cpp: plugin::open, plugin::find_file, plugin::check_for_file, plugin::get_plugin_name", "include/pion/plugin.hpp: find_plugin_file, find_config_file"]}
{"id": "C150", "title": "The list of plug-ins is complete, exact and usable", "statement": "The list of all plug-ins has the name of every regular file ending in .so in the plug-in directories and of every plug-in that is linked, and no others; every name in the list can be found by that name; no name is listed twice; a directory that cannot be read does not hide the others. A directory can be added only if it exists, and it is remembered under its absolute path. (Violated: a file named .so is listed with the empty name, which cannot be found; a plug-in in two directories, or linked and in a directory, is listed twice; one directory that has been removed makes the whole list throw.)", "quantifier": "every list of directories, every content of them and every set of linked plug-ins", "why_tests_cant": "quantifies over all contents of directories and needs directories that vanish while the process runs", "anchors": ["src/plugin.cpp: plugin::get_all_plugin_names, plugin::add_plugin_directory, plugin::get_plugin_name"]}
{"id": "C151", "title": "An interrupt or termination signal ends the wait for the end", "statement": "After an interrupt or termination signal or a call that ends the process, every thread waiting for the end returns, however the threads are scheduled and however often a wait wakes for no reason; no wait returns before; broken pipes, ended children, hang-ups and the signals of job control change nothing. (Violated: the handler takes the mutex the wait uses, so a signal that comes to a thread between its taking and giving back that mutex stops this thread and all waits for ever.)", "quantifier": "any number of threads, every interleaving of their single steps with signals and spurious wake-ups", "why_tests_cant": "the window is a few instructions wide and the thread that gets a signal cannot be chosen by a test", "anchors": ["src/process.cpp: process::shutdown, process::wait_for_shutdown, process::initialize, handle_signal"]}
{"id": "C152", "title": "Files are sent with the type that their name tells", "statement": "The file service sends every file with the content type that belongs to the extension of its name, in small or capital letters, and as application/octet-stream if there is no extension or none of the list; so also for answers without body and files from the cache. (Violated: a file without extension whose whole name is html, css or the like is sent with that type; fonts ending in .eot are sent as application/octet-stream, since the list has eof in place of it.)", "quantifier": "every configuration, every disk, every history of requests and every file", "why_tests_cant": "quantifies over all names and all histories of the cache", "anchors": ["services/FileService.cpp: FileService::findMIMEType, FileService::createMIMETypes, FileService::operator()"]}
{"id": "C153", "title": "Options of the file service take effect as written or are refused", "statement": "An option given to the file service as text is taken if and only if its name is known and its value is one of those allowed (an existing directory or file, one of the listed settings, a number in digits); it then changes the setting it names to the value written and nothing else. Otherwise an exception tells what is wrong and the service serves as before. Whatever options are given, a service without writable=true changes no file. (Violated: a number with a minus sign is taken for 2^64 less it; a directory or file that is refused is used all the same from then on.)", "quantifier": "every file system, every state of the service, every name and value of an option and every list of them", "why_tests_cant": "quantifies over all texts and all sequences of taken and refused options", "anchors": ["services/FileService.cpp: FileService::set_option", "include/pion/http/plugin_server.hpp: plugin_server::set_service_option"]}
{"id": "C154", "title": "The first line of an answer tells what the handler set", "statement": "Whatever a handler writes or sets before it sends, the answer to a request of HTTP 1.0 or later begins with HTTP/1.1, the status and the text that were set last, or 200 OK; the answer to a request without version (HTTP 0.9) is the content alone. (Violated for the latter: a first line HTTP/0.0 with status 0 and header lines are sent.)", "quantifier": "every request method and version, every kind of connection, every sequence of calls of the response writer before and after the first send", "why_tests_cant": "quantifies over all sequences of calls and all versions", "anchors": ["include/pion/http/response.hpp: response::update_request_info, response::update_first_line", "include/pion/http/message.hpp: message::get_first_line, message::prepare_buffers_for_send", "include/pion/http/response_writer.hpp: response_writer"]}
{"id": "C155", "title": "The content of a message is a value of its own", "statement": "Whatever a program does with message contents (create, size, fill, copy, assign, clear, destroy, in any order), no memory is read or written that may not be, every content holds exactly the bytes last given to it or to the message it was copied or assigned from, is followed by a zero byte, changes only by calls on its own message, and all memory is given back. This also holds if a message is assigned to itself, and if memory is refused the content stays as it was. (Violated for both: a message assigned to itself loses its content, whose bytes are then whatever the new memory holds; and if memory is refused the message tells a size past the memory it holds.)", "quantifier": "every sequence of operations on any number of contents, every size and every content, with memory granted or refused for every allocation", "why_tests_cant": "quantifies over all programs; memory errors and lost bytes show only by chance at run time", "anchors": ["include/pion/http/message.hpp: message::content_buffer_t, message::create_content_buffer, message::set_content, message::operator="]}
{"id": "C156", "title": "A copy of a message is as good as the original", "statement": "A message copied or assigned from another sends exactly the bytes that the other would send, headers, cookies, first line and content included; calls on either afterwards never show in the other. (Violated only by a message assigned to itself.)", "quantifier": "every program with any number of requests and responses, any calls on them, copies and assignments in any order; keep-alive or not, with or without body", "why_tests_cant": "quantifies over all programs; a test checks a few members of a few copies", "anchors": ["include/pion/http/message.hpp: message::message, message::operator=", "include/pion/http/response.hpp: response::response", "include/pion/http/request.hpp: request"]}
{"id": "C157", "title": "The text of an error tells what is wrong with the message", "statement": "If a part of a message is longer than allowed, the text of the error names this part, however the message arrives in pieces; errors that differ have texts that differ, and none has the text of an unknown error. (Violated: a URI that is too long is reported as a method that is too long, a status message that is too long as an invalid character, and two errors of SPDY as an unknown error.)", "quantifier": "every over-long method, URI, query string, status message, header name and header value, in every division into pieces, whatever follows; every pair of errors", "why_tests_cant": "the over-long parts and divisions are unbounded", "anchors": ["include/pion/http/parser.hpp: parser::error_category_t", "include/pion/spdy/parser.hpp: parser::error_category_t", "src/http_parser.cpp: parser::parse_headers", "src/http_server.cpp: server::handle_request"]}
{"id": "C158", "title": "The error of SPDY parsing tells what the packet has wrong", "statement": "A call of the SPDY parser that reports an error names the reason the frame has (no frame, unknown version, a header block that does not decompress, a GOAWAY frame that tells of a protocol error or an internal error), reports none if there is none, and what it reports of a whole frame depends on this frame alone. (Violated: a GOAWAY frame with its status is never an error, and for one without status the four bytes after the frame are taken for it.)", "quantifier": "every packet, position, declared length, earlier state and decompression result, with or without assertions; for the last part every two packets with the same frame", "why_tests_cant": "packets and what follows a frame are unbounded", "anchors": ["src/spdy_parser.cpp: parser::parse, parser::parse_spdy_frame, parser::parse_spdy_goaway_frame, parser::parse_header_payload, parser::populate_frame"]}
{"id": "C159", "title": "Content of a message whose headers are already known", "statement": "If header parsing is skipped for a message whose headers the caller has set, the content is read as these headers say, however it arrives in pieces: of the given length, in chunks, or up to the end of the connection; bytes after it are left, the rest of the message stays as it was, and a length that is no number is reported. (Violated: method, resource, query string and status are lost, and with the status that there is no content; cookies are added a second time; a length that is no number goes unreported and the content is parsed as a new message.)", "quantifier": "every message and headers, content of any size up to the maximum, in every division into buffers, with any bytes after it", "why_tests_cant": "contents and divisions are unbounded; no test calls the function", "anchors": ["include/pion/http/parser.hpp: parser::skip_header_parsing", "src/http_parser.cpp: parser::finish_header_parsing, parser::update_message_with_header_data, parser::parse"]}
{"id": "C160", "title": "Becoming a daemon", "statement": "After a program made itself a daemon, the process that goes on has a session of its own, its standard input, output and error are the null device, no other descriptor is open, and files it creates are neither writable for the group nor accessible for others; the process that made the call has ended, with 0 if there is a daemon and with 1 if not. (Violated: nothing is done if the parent is process 1, for example in a container; without a null device the standard descriptors stay closed, so that files opened later take their place; descriptors above the current limit stay open.)", "quantifier": "every process, with any descriptors open, any limit, any parent, fork and the null device working or not, every mode of a file", "why_tests_cant": "the tables of descriptors and limits are unbounded; a test that forks and closes its descriptors loses its own output", "anchors": ["src/process.cpp: process::daemonize"]}
{"id": "C161", "title": "Comparing files regardless of the order of lines", "statement": "The helper that compares two files in any order says yes exactly if the files have the same lines, each as often, once blanks around lines are taken off and empty lines and lines beginning with # are left out. Line endings and the order of lines make no difference. A file that cannot be opened ends the test.", "quantifier": "every pair of files, of any size, with any lines of any length", "why_tests_cant": "all files and all orders of their lines; a wrong yes of the helper makes tests pass that should not", "anchors": ["include/pion/test/unit_test.hpp: check_files_match, read_lines_from_file"]}
{"id": "C162", "title": "Comparing files byte by byte", "statement": "The helper that compares two files exactly says yes exactly if they have the same bytes, also if they are longer than the buffers it reads them with. A file that cannot be opened ends the test.", "quantifier": "every pair of files of any size", "why_tests_cant": "files of all sizes, at and around all multiples of the buffer's size", "anchors": ["include/pion/test/unit_test.hpp: check_files_exact_match"]}
{"id": "C163", "title": "Comparing files regardless of line endings", "statement": "The helper that compares two files without regard to line endings says yes exactly if they have as many lines and every line is the same but for carriage returns at its end. (Violated: after a line of more than 4095 characters whose first 4095 are the same nothing more is compared, and the characters of a line after a zero byte are not compared.)", "quantifier": "every pair of files, with any lines of any length", "why_tests_cant": "the yes is wrong only for files with very long lines or zero bytes, which no test of the helper has", "anchors": ["include/pion/test/unit_test.hpp: check_files_exact_match, trim"]}
{"id": "C164", "title": "Log entries of several threads at once", "statement": "When several threads log to the thread-safe formatter, the log has whole entries only: none is mixed with another, every thread's entries are there in its order, the texts can be read back, and no thread waits for ever. (Violated: a thread that writes or ends without having started an entry writes into the entry of another thread or ends it, and a text with ]]> in it ends the section it is written in.)", "quantifier": "every number of threads, every list of entries of each, every interleaving including wake-ups without a reason, all texts", "why_tests_cant": "interleavings are chosen by the system; a test sees a few of them", "anchors": ["include/pion/test/unit_test.hpp: safe_xml_log_formatter::log_entry_start, log_entry_value, log_entry_finish"]}
{"id": "C165", "title": "What is held of a message is in proportion to what was received", "statement": "Whatever bytes arrive, in whatever blocks, the headers, cookies, variables and content that a message holds are together no more than a small multiple of the bytes received so far, and there is a limit to them. (Violated: every comma in the value of a variable adds its whole name once more, so the variables are up to 1024 times the request; the buffer for the content is as large as announced before any of it is there; nothing limits the number of headers.)", "quantifier": "every sequence of blocks handed to a new parser while it wants more, requests and responses, every setting and content limit; every form, cookie header and multipart body", "why_tests_cant": "an amplification shows only for the worst input, which has to be found among all of them", "anchors": ["src/http_parser.cpp: parse, parse_headers, parse_url_encoded, parse_cookie_header, parse_multipart_form_data, finish_header_parsing", "include/pion/http/message.hpp: add_header, create_content_buffer"]}
{"id": "C166", "title": "The variables and cookies of a message are those it was sent with", "statement": "When a request is complete, its variables are exactly those of the query string and, if its type says that the content is a form, those of the form, URL encoded or multipart; content of another type adds none. Its cookies are exactly those of its Cookie headers, those of a response exactly those of its Set-Cookie headers. This holds however the bytes are cut into blocks and for content with a length as well as in chunks with trailers. A form that cannot be read is reported. (Violated: the type is compared with regard to the case of letters, so a form of a type written in other letters is not read; a type that only begins like that of forms is taken for it; a form that cannot be read leaves a valid request with some of the variables.)", "quantifier": "every legal head and content of a request or response, every way to cut it into blocks, every position of new entries in the dictionaries", "why_tests_cant": "the claim is about the joint work of the parsers of first line, headers, chunks, forms and cookies over all messages and all cuts; tests try each parser alone on a few texts", "anchors": ["src/http_parser.cpp: update_message_with_header_data, finish, finish_header_parsing", "include/pion/http/request.hpp: get_queries, get_query", "include/pion/http/message.hpp: get_cookies, get_cookie"]}
{"id": "C167", "title": "What a user tells of its password can be carried to another manager and is no more than a digest", "statement": "With OpenSSL, get_password of a user is the SHA-256 digest of its password in lower case hexadecimal (or the hash it was given), and nothing else of the password is kept. Given to add_user_hash of another manager (to add_user without OpenSSL), it makes a user there that takes exactly the same passwords. A user that was never given a password takes none. (Violated after update_user_hash threw on a text of the length of a hash: then the user tells a text that no manager takes. Without OpenSSL a user that was never given a password takes the empty one.)", "quantifier": "every two histories of calls of two managers, every name and password, every pair of hash functions with the lengths of SHA-256 and SHA-1", "why_tests_cant": "all histories, and that a password leaves no other trace is a claim on pairs of histories", "anchors": ["include/pion/user.hpp: user::get_password, set_password, set_password_hash, match_password", "include/pion/user.hpp: user_manager::add_user_hash, update_user_hash"]}
{"id": "C168", "title": "A service that scans its directory serves exactly the files that were there when it was started", "statement": "After start with scan 1 or 3, a GET or HEAD gets 404 or 403 for everything that was not a file below the configured directory at that time, whatever is on the disk now, and gets the file (or its headers) for every such file that can still be read, whatever requests came before. (Violated: another spelling of the path, such as one with a dot, is answered with 404; with the directory / the scan drops the first letter of names, so files are answered with 404; with a directory that was given with a slash at its end every request is answered with 403.)", "quantifier": "every tree of directories and files of any depth, every history before the start, every list of requests after it, every change of the disk, both scan settings, all caching settings, both versions of Boost", "why_tests_cant": "trees of any shape and depth, and that the set of files does not change with later requests", "anchors": ["services/FileService.cpp: start, scanDirectory, addCacheEntry, operator()", "services/FileService.hpp: m_scan_setting"]}
{"id": "C169", "title": "A message finished early is marked so and keeps what came", "statement": "When the bytes of a message end before the message does and the caller finishes it, the message is not valid and has status truncated, its content is what came of the content (as far as content is kept), and its headers and first line are those that came. (Violated: chunks that end behind a whole chunk give a valid message with status ok; a part of the trailers makes the content empty and the variables of the query string come twice.)", "quantifier": "every legal message cut at any byte of its head, of content with a length, of its chunks or of its trailers; every cut of the bytes into blocks; every maximum content length", "why_tests_cant": "every place at which a message can be cut and every way of handing it over", "anchors": ["src/http_parser.cpp: parser::finish, parser::compute_msg_status, parser::update_message_with_header_data, parser::parse", "include/pion/http/parser.hpp: finish", "src/http_message.cpp: message::concatenate_chunks"]}
{"id": "C170", "title": "Text given to a message stays where it was put", "statement": "Whatever texts an application gives to a message (first line, header values, cookies), a receiver that takes the bytes sent for a message sees these headers and cookies and no others, and exactly one message. (Violated: line breaks are written as they are. Every legal header line behind a line break in a value is a header for the receiver, and a status text that holds the end of a head makes the receiver see a message that ends there and a second one of the text's choice.)", "quantifier": "every history of setter calls and sends, every header value, cookie and status text, every order of the header table, every cut of the bytes into reads", "why_tests_cant": "Texts, tables and cuts are unbounded; tests send texts without line breaks.", "anchors": ["include/pion/http/message.hpp: prepare_headers_for_send, append_headers, prepare_buffers_for_send", "include/pion/http/response.hpp: update_first_line, set_status_message, append_cookie_headers", "include/pion/http/request.hpp: update_first_line, append_cookie_headers", "src/http_message.cpp: send, write"]}
{"id": "C171", "title": "Calls after the end of a message change nothing", "statement": "Once parse has said that a message is finished, calling parse with later bytes or finish reads no bytes, says finished again and leaves the message as it is. (Violated for a request with a form: every call decodes the content again and adds its variables once more.)", "quantifier": "every message and cut, every sequence of calls of parse and finish after the end, with any bytes", "why_tests_cant": "Calls after the end are not tested; messages, bytes and the number of calls are unbounded.", "anchors": ["src/http_parser.cpp: parser::parse, parser::finish, parser::compute_msg_status", "include/pion/http/parser.hpp: parser::finish, eof"]}
{"id": "C172", "title": "A removed file is not found any more", "statement": "When the file service has removed a file for a DELETE and the file is not made again, a later GET or HEAD for the same resource is answered with 404. (Violated: the entry of the cache stays. With the default settings a file that was asked for before makes the service throw, which is answered as a server error; with caching without checks the removed file is sent for ever; with a scan of the directory this happens also to files that nobody asked for.)", "quantifier": "every configuration of the service, every history of starts, stops and requests on any disks before the removal, every request that removes, every history of starts, stops and requests between while the file is gone, every later GET or HEAD for the resource", "why_tests_cant": "Tests remove a file of a fresh service and look at the disk; settings, histories and disks are unbounded.", "anchors": ["services/FileService.cpp: FileService::operator(), DiskFile::update, DiskFile::checkUpdated, FileService::sendNotFoundResponse", "services/FileService.hpp: FileService, m_cache_map"]}
