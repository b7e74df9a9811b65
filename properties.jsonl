{"id": "C01", "title": "trim removes exactly the surrounding whitespace, in place and in bounds", "statement": "Calling trim on any NUL-terminated string leaves in the same memory the string with its maximal run of leading and of trailing C-locale whitespace removed and the interior untouched; it never reads or writes outside the original string and its terminator, it does not move the bytes after the terminator, and trimming twice equals trimming once.", "quantifier": "every NUL-terminated string (any length, any bytes) stored in any buffer with any bytes after it", "why_tests_cant": "The in-place memmove/strlen dance is only right because of an arithmetic coincidence; a few literals cannot show it for every split of leading blanks, interior and trailing blanks.", "anchors": ["string_utils.c:trim"]}
{"id": "C02", "title": "chop_string cuts at the first byte that is at most 34 as a signed char", "statement": "After chop_string the string is its longest prefix whose bytes are all ASCII characters above 34 (so it is cut at the first control character, blank, '!', double quote, or byte >= 0x80), and a string with no such byte is unchanged; nothing outside the string is touched.", "quantifier": "every NUL-terminated string in every buffer", "why_tests_cant": "256 byte values at every position; tests never try bytes >= 0x80 where the signed comparison matters.", "anchors": ["string_utils.c:chop_string"]}
{"id": "C03", "title": "rtrim and ltrim split a string at the first separator", "statement": "For a string s and a separator c: if c occurs, rtrim returns what precedes the first c, ltrim returns everything after it, and rtrim(s) ++ c ++ ltrim(s) = s; if c does not occur both return a copy of s. The argument is not modified.", "quantifier": "every string and every separator character", "why_tests_cant": "Needs every string, including separators at both ends and repeated separators.", "anchors": ["string_utils.c:rtrim", "string_utils.c:ltrim"]}
{"id": "C04", "title": "split returns the maximal delimiter-free runs, within its documented capacity", "statement": "split(str, delim) returns, in order, exactly the non-empty maximal runs of non-delimiter characters of str; the call stays inside the 50-entry result exactly when there are at most 50 runs, and each returned entry is readable as a C string exactly when the run has at most 1022 characters (then it equals the run).", "quantifier": "every string, every delimiter set, every number and length of tokens", "why_tests_cant": "Capacity and termination conditions depend on unbounded token counts and lengths.", "anchors": ["string_utils.c:split", "string_utils.h:MAX_SPLIT_STR", "string_utils.h:MAX_SPLIT_STR_LEN"]}
{"id": "C05", "title": "split_once always splits at the first colon, whatever delimiter is asked for", "statement": "split_once(str, delim) ignores delim: with a ':' in str it returns two entries, the trimmed text before the first ':' and the trimmed text after it; without one it returns one entry, the trimmed whole string. Entries are readable exactly when the trimmed piece has at most 1022 characters.", "quantifier": "every string and every delimiter argument", "why_tests_cant": "The delimiter argument is never varied in tests; the claim is over all strings.", "anchors": ["string_utils.c:split_once"]}
{"id": "C06", "title": "join concatenates with delimiters and never overruns its allocation", "statement": "join(array, n, delim) returns the elements separated by delim; NULL elements before the last are skipped together with their delimiter; a NULL array, n <= 0 or a NULL first element give the empty string; for n >= 2 a NULL last element is undefined behaviour and that is the only undefined case (the computed allocation always suffices).", "quantifier": "every array of possibly-NULL strings, every size and delimiter", "why_tests_cant": "The size computation must dominate the writes for every array.", "anchors": ["string_utils.c:join"]}
{"id": "C07", "title": "split undoes join", "statement": "Joining one to fifty non-empty delimiter-free strings (each at most 1022 characters) with a one-character delimiter and splitting the result on that delimiter gives back the same strings in the same order.", "quantifier": "every such list of strings and every delimiter character", "why_tests_cant": "A round trip over unbounded inputs.", "anchors": ["string_utils.c:join", "string_utils.c:split"]}
{"id": "C08", "title": "startswith / startswithany are case-insensitive prefix tests", "statement": "startswith(s,p) is true exactly when p, compared without regard to ASCII case, is a prefix of s; startswithany(s, list) is true exactly when some entry before the first empty or NULL entry is such a prefix. In particular the method check accepts exactly the methods that begin with GET, POST, PUT or DELETE in any case.", "quantifier": "every string, prefix and terminated list", "why_tests_cant": "All case variants and all longer strings; tests use three literals.", "anchors": ["string_utils.c:startswith", "string_utils.c:startswithany", "ws.c:ALLOWED_HTTP_METHODS"]}
{"id": "C09", "title": "text_find_after returns the end of the first occurrence and stays in bounds", "statement": "On a buffer holding exactly `bytes` data bytes followed by a NUL, text_find_after(h, needle, start, bytes) returns the position just after the leftmost occurrence of the needle starting at or after start and lying inside the data, and -1 exactly when there is none; it never reads past the terminator.", "quantifier": "every buffer content, non-empty NUL-free needle, start and length", "why_tests_cant": "The inner loop can run past `bytes`; only a proof shows the terminator always stops it.", "anchors": ["string_utils.c:text_find_after"]}
{"id": "C10", "title": "string_isalnum accepts exactly the non-empty alphanumeric strings", "statement": "string_isalnum(s) is true exactly when s is non-empty and every character is an ASCII letter or digit.", "quantifier": "every string", "why_tests_cant": "All byte values at all positions.", "anchors": ["string_utils.c:string_isalnum"]}
{"id": "C11", "title": "md5sum digests exactly the given bytes and writes exactly 129 bytes", "statement": "md5sum(out, data, len) feeds the digest exactly data[0..len) (nothing for len <= 0) in order whatever the length relative to the 512-byte block, leaves the 32 lower-case hex digits of the digest as a C string in out, and is defined exactly when out has room for 129 bytes.", "quantifier": "every data length including multiples of 512, every output buffer size", "why_tests_cant": "Chunk-boundary and buffer-size conditions for all lengths; the only caller passes a 36-byte buffer.", "anchors": ["string_utils.c:md5sum", "ws.c:save_tmp_file"]}
{"id": "C12", "title": "json_array_of_strings produces JSON that decodes to the input", "statement": "For strings without control characters, double quotes or backslashes, the text returned by json_array_of_strings is a JSON array of strings that decodes to exactly the given list; the buffer computed for it always suffices.", "quantifier": "every list of such strings", "why_tests_cant": "Round trip and buffer bound over unbounded inputs.", "anchors": ["json_utils.c:json_array_of_strings"]}
{"id": "C13", "title": "json_array_of_ints produces JSON that decodes to the input", "statement": "For every array of 32-bit ints the text returned by json_array_of_ints is a JSON array that decodes to exactly those integers, and it fits in the allocated buffer.", "quantifier": "every array of C ints of every length", "why_tests_cant": "2^32 values per slot and a buffer bound that must hold for every mix of widths.", "anchors": ["json_utils.c:json_array_of_ints"]}
{"id": "C14", "title": "json_array_of_entities is the bracketed comma-joined list of the serialised elements", "statement": "For every list and serializer returning strings, json_array_of_entities returns '[' + the serialisations joined with ',' + ']' in order, and '[]' for the empty list; when the serialisations are JSON values the result is the JSON array of them.", "quantifier": "every list of elements and every serializer", "why_tests_cant": "Quantifies over user-supplied serializers.", "anchors": ["json_utils.c:json_array_of_entities"]}
{"id": "C15", "title": "JSON key/value helpers and error bodies decode to what was put in", "statement": "json_key_value, _int, _bool and _uint32_t fragments, and the error object {code,message}, decode (as members of a JSON object) to the given key and value, an empty error code being replaced by UNKNOWN; this holds for all strings free of control characters, quotes and backslashes and all integers of the C type.", "quantifier": "every key, value and integer", "why_tests_cant": "Round trip over unbounded inputs.", "anchors": ["json_utils.c:json_key_value", "json_utils.c:json_key_value_int", "json_utils.c:json_key_value_bool", "json_utils.c:json_key_value_uint32_t", "http_utils.c:wayuu_error_t_json_serializer"]}
{"id": "C16", "title": "JSON helpers do not escape: a quote in the data breaks or changes the document", "statement": "There are strings for which the array or key/value text is not valid JSON, and strings for which it is valid JSON with a different content (extra elements or members injected by the data): the round trip of the previous properties does not extend to all strings.", "quantifier": "existence, over all strings; the boundary is the presence of quotes, backslashes or control characters", "why_tests_cant": "Tests use harmless strings only.", "anchors": ["json_utils.c:json_array_of_strings", "json_utils.c:json_key_value"]}
{"id": "C17", "title": "return_response is defined exactly when status is known and text and description are non-empty", "statement": "return_response produces the documented JSON object for status -1,0,1,2 with non-empty text and description; for every other status or an empty text or description it uses an uninitialised pointer.", "quantifier": "every call_response value", "why_tests_cant": "Uninitialised-pointer paths do not fail deterministically in tests.", "anchors": ["http_utils.c:return_response"]}
{"id": "C18", "title": "A configuration line parses to its trimmed key and value", "statement": "For a line K=V where K is non-empty, K and V contain no '=' and K is not blank, conf_parse_line returns key trim(K) and value trim(V), with any surrounding blanks and line ending removed; a line without '=' gives no item.", "quantifier": "every such line, with every amount of surrounding whitespace", "why_tests_cant": "All placements of blanks and all contents.", "anchors": ["conf_parser.c:conf_parse_first_pass", "conf_parser.c:conf_parse_line"]}
{"id": "C19", "title": "Configuration values are cut at a second '=' and a line of only '=' is undefined", "statement": "Only the text between the first and second run of '=' reaches the value; leading '=' are skipped so that =V yields key V; a line consisting only of '=' and blanks dereferences NULL, and conf_parse_line(line, multi) of a line without '=' dereferences NULL.", "quantifier": "every line; characterises strtok's behaviour on every placement of '='", "why_tests_cant": "Tests never put '=' in a value.", "anchors": ["conf_parser.c:conf_parse_first_pass", "conf_parser.c:conf_parse_line"]}
{"id": "C20", "title": "Multi-valued keys: up to 20 values, in order, trimmed", "statement": "A value with k comma-separated non-empty tokens gives n_multivalues = k and the k trimmed tokens in order for every k <= 20; with 21 or more tokens the parser writes past the 20-entry array.", "quantifier": "every value string, every token count", "why_tests_cant": "The boundary at 20/21 and the behaviour for every smaller count.", "anchors": ["conf_parser.c:conf_parse_multi"]}
{"id": "C21", "title": "Item serialisation and parsing are inverse", "statement": "Parsing the text produced by conf_item_to_string gives back the same key, value and multi-values for every well-formed item (trimmed, non-empty key without '='; trimmed value without '='; 1..20 trimmed non-empty multi-values without ',' or '='), and the serialisation always fits its allocation.", "quantifier": "every well-formed item, single and multi valued", "why_tests_cant": "Round trip over unbounded inputs.", "anchors": ["conf_parser.c:conf_item_to_string", "conf_parser.c:conf_parse_line"]}
{"id": "C22", "title": "Writing a configuration and parsing the file back delivers every item", "statement": "After write_conf of any list of well-formed items whose lines fit in 510 characters, parse returns 0 and calls the handler exactly once per item whose key is in the flag table, in file order, with the item's key and value and, for multi keys, its multi-values; items with other keys are skipped.", "quantifier": "every list of items and every flag table", "why_tests_cant": "File-level round trip over unbounded lists.", "anchors": ["conf_parser.c:parse", "conf_parser.c:write_conf", "conf_parser.c:get_key_flag"]}
{"id": "C23", "title": "parse stops with an error at the first malformed line", "statement": "If a file's lines up to the first one without '=' are well formed, parse delivers exactly the flagged items of those lines and returns -1; blank lines and comments without '=' are malformed in this sense. It returns 0 only if every line contains '='; a file that cannot be opened gives -1, and a directory is taken for an empty configuration.", "quantifier": "every file content", "why_tests_cant": "Every position of the malformed line.", "anchors": ["conf_parser.c:parse"]}
{"id": "C24", "title": "A crash during write_conf leaves a prefix of the new file, never the old one", "statement": "At every crash point after the file has been opened, the stored file is a prefix of the new contents and the old contents are gone; there are crash points at which neither the old nor the new configuration can be read back.", "quantifier": "every crash point of the write sequence", "why_tests_cant": "Tests do not crash between system calls.", "anchors": ["conf_parser.c:write_conf"]}
{"id": "C25", "title": "write_file then read_file returns the bytes written", "statement": "After write_file(f, data, n), the file holds exactly the n bytes and read_file(out, f, 0) stores them followed by a NUL; read_file with maxlen m > 0 stores exactly min(size, m-1) bytes plus a NUL; other files are untouched. read_file with maxlen 0 overruns any buffer not larger than the file.", "quantifier": "every data, file system, buffer size and maxlen", "why_tests_cant": "All sizes around the truncation boundary.", "anchors": ["file_utils.c:write_file", "file_utils.c:read_file"]}
{"id": "C26", "title": "find_in_file is a substring test on the first 8191-byte file content", "statement": "For a regular file of at most 8191 bytes find_in_file(path, needle) is true exactly when needle occurs as a substring of the content up to its first NUL; it is false when path is not a regular file; a file of 8192 bytes or more overruns the heap buffer.", "quantifier": "every file content, needle and file size", "why_tests_cant": "The size boundary and every substring position.", "anchors": ["file_utils.c:find_in_file"]}
{"id": "C27", "title": "IP admission decision", "statement": "allowed_address(ip) is true exactly when ip does not occur in the deny file and either there is no allow file or ip occurs in it; deny wins over allow; with neither file everyone is allowed; the two file names are fixed from the root at the first call and later root changes are ignored.", "quantifier": "every content (or absence) of both files, every address, every sequence of calls", "why_tests_cant": "The decision table over arbitrary file contents and call histories.", "anchors": ["ws.c:allowed_address"]}
{"id": "C28", "title": "IP lists match by substring, not by entry", "statement": "A listed address matches any address that occurs inside the list text: listing 110.0.0.10 also (dis)allows 10.0.0.1. When no listed line other than the address itself contains it as a substring, the decision coincides with one-address-per-line membership.", "quantifier": "every list of lines and every address", "why_tests_cant": "Tests use one address.", "anchors": ["ws.c:allowed_address", "file_utils.c:find_in_file", "README.md:IP Filtering"]}
{"id": "C29", "title": "Status responses are well framed", "statement": "For each supported status, send_http_status(req, status, message) sends exactly status line, Server header, Content-Length header, blank line, and a body whose length is the announced Content-Length (0 for an empty message, message + CRLF otherwise), adds the exact number of bytes sent to response_length, and logs one access entry; for any other status it sends and logs nothing.", "quantifier": "every status, message and prior request state", "why_tests_cant": "Framing must hold for every message length.", "anchors": ["http_utils.c:send_http_status", "http_utils.c:not_found", "http_utils.c:bad_request"]}
{"id": "C30", "title": "send_http_status overflows its buffer exactly when the response head plus message exceeds 1023 bytes", "statement": "The call is memory safe exactly when status line + Server header + Content-Length header + message fit in 1023 bytes.", "quantifier": "every status and message length", "why_tests_cant": "The exact boundary depends on the decimal width of the length.", "anchors": ["http_utils.c:send_http_status"]}
{"id": "C31", "title": "JSON responses are well framed", "statement": "return_json_with_status sends head, CORS headers, Content-Type application/json, a Content-Length equal to the number of bytes after the blank line, then data and CRLF; response_length is the exact total number of bytes sent; for an unsupported status the status line and headers are missing from what is sent.", "quantifier": "every status and body", "why_tests_cant": "Framing for every body length.", "anchors": ["http_utils.c:return_json_with_status", "http_utils.c:return_json_headers"]}
{"id": "C32", "title": "Content types by extension", "statement": "get_content_type maps each file name, by the text from its last dot, to the documented type for html, js, png, jpg, jpeg, zip, css, svg, ico and txt, names without a dot (or only a leading one) to text/html, every other extension to text/csv and only .csv to application/octet-stream; text/yaml is never produced. get_content_type_for_mime behaves the same way.", "quantifier": "every file name and MIME string", "why_tests_cant": "An inverted strcmp makes all untested extensions take the wrong branch.", "anchors": ["http_utils.c:get_content_type", "http_utils.c:get_content_type_for_mime"]}
{"id": "C33", "title": "Static responses carry the exact file bytes but repeat the status line", "statement": "direct_file on an existing file sends the head (status line and Server header twice, then Content-Type, session headers if any, blank line) followed by exactly the bytes of the file, and response_length is the exact number of bytes sent; the response is defined exactly when the session has at most 493 bytes and head and file together at most 2^31-1; on anything but a regular file it sends nothing and returns -1.", "quantifier": "every file content, name and session", "why_tests_cant": "All contents, including binary ones; the duplicated head is invisible to a test that only looks for a substring.", "anchors": ["http_utils.c:direct_file", "http_utils.c:return_headers", "http_utils.c:return_file"]}
{"id": "C34", "title": "Streams are forwarded completely", "statement": "return_json_stream sends the JSON head, a blank line, every byte of the stream in order and a final CRLF, and response_length is the exact number of bytes sent, for every NUL-free stream whatever its line lengths, as long as the length adds up in ints without overflow (given exactly); bytes after a NUL in a line are dropped.", "quantifier": "every stream content and line length", "why_tests_cant": "Buffer-boundary conditions for all line lengths.", "anchors": ["http_utils.c:send_stream", "http_utils.c:return_json_stream"]}
{"id": "C35", "title": "URL path and query separation", "statement": "For a URL P or P?Q with P non-empty and without '?', path is P and query is Q up to its next '?' (leading '?' of Q skipped), empty when absent; a URL that is empty or consists only of '?' reads an uninitialised entry.", "quantifier": "every URL", "why_tests_cant": "Every placement and number of '?'.", "anchors": ["http_utils.c:get_path_and_query_string"]}
{"id": "C36", "title": "Header lookup returns the first exact match", "statement": "http_get_header returns the value of the first stored header whose name is byte-for-byte the requested one, and the empty string when there is none.", "quantifier": "every header list and name", "why_tests_cant": "All lists, duplicates and case variants.", "anchors": ["http_utils.c:http_get_header"]}
{"id": "C37", "title": "Route templates resolve to prefix and parameter name", "statement": "router_add_route of PREFIX{PARAM} (ASCII PREFIX without '{') registers a parametric route with that prefix and parameter name; a template without '{' registers a constant route with itself; anything after the parameter name other than its last character becomes part of the name.", "quantifier": "every template", "why_tests_cant": "All shapes of template.", "anchors": ["router.c:router_resolve_route", "router.c:router_add_route"]}
{"id": "C38", "title": "Dispatch picks the first registered matching route", "statement": "router_handle_request considers routes in registration order and selects the first one that is constant and equal to METHOD:PATH, or parametric with its prefix occurring in METHOD:PATH and different from it; no later route is looked at.", "quantifier": "every routing table built by any sequence of registrations, every method and path", "why_tests_cant": "Order and overlap of arbitrary routes.", "anchors": ["router.c:router_handle_request"]}
{"id": "C39", "title": "The filter gates the handler", "statement": "When a route is selected: without a filter the handler runs exactly once; with a filter the filter runs exactly once before, and the handler runs (once) if and only if the filter returned true; no other route's filter or handler runs.", "quantifier": "every routing table, request, filter and handler behaviour", "why_tests_cant": "Quantifies over user-supplied callbacks.", "anchors": ["router.c:router_handle_request", "router.h:request_filter"]}
{"id": "C40", "title": "Unrouted requests get exactly one 400 response", "statement": "When no route matches, no handler or filter runs and exactly one 400 Bad Request response with Content-Length 0 is sent and logged.", "quantifier": "every routing table and unmatched request", "why_tests_cant": "All unmatched requests.", "anchors": ["router.c:router_handle_request", "router.c:reject_routing_request"]}
{"id": "C41", "title": "Path parameters are appended to the form", "statement": "When the selected route is parametric with prefix X and parameter p and METHOD:PATH = X ++ v, the handler sees form p=v if the form was empty and form&p=v otherwise.", "quantifier": "every route, path and prior form that fits its allocation", "why_tests_cant": "All values and form lengths.", "anchors": ["router.c:router_extract_param", "router.c:router_handle_request"]}
{"id": "C42", "title": "Parametric routes match the prefix anywhere in the request", "statement": "A parametric route is selected also when its prefix occurs later than the start of METHOD:PATH (the parameter value is then not what follows the prefix): prefix matching at the start is not guaranteed; it is guaranteed when the route's method has no ':' and is not a proper suffix of the request's method, and the path does not contain METHOD:.", "quantifier": "every prefix and request", "why_tests_cant": "Tests only use matching prefixes.", "anchors": ["router.c:router_handle_request"]}
{"id": "C43", "title": "Dispatch buffer bounds", "statement": "router_handle_request is memory safe on its 255-byte match buffer exactly when |METHOD| + |PATH| <= 253; so a 254-byte URL is safe for GET and PUT but not for POST or DELETE.", "quantifier": "every method and path length", "why_tests_cant": "Exact boundary over all lengths.", "anchors": ["router.c:router_handle_request", "ws.c:accept_request"]}
{"id": "C44", "title": "Parameter buffers", "statement": "router_extract_param is in bounds exactly when |param| <= 2*|prefix| + 8; appending a path parameter to a request body read from the network overruns the body's allocation for every NUL-free body.", "quantifier": "every parameter name, prefix, body", "why_tests_cant": "Exact boundary over all lengths.", "anchors": ["router.c:router_extract_param", "router.c:router_handle_request", "ws.c:handle_api_request"]}
{"id": "C45", "title": "Route table capacity and life cycle", "statement": "Up to 128 registrations are stored in order and all stay reachable; the 129th writes past the table; after free_routing_table, dispatch and a second free touch freed memory until router_init is called.", "quantifier": "every sequence of router calls", "why_tests_cant": "Histories of arbitrary length.", "anchors": ["router.c:router_add_route", "router.c:free_routing_table", "router.c:router_init"]}
{"id": "C46", "title": "get_line reads one line", "statement": "get_line(req, buf, size) stores in buf the stream's bytes up to and including the first LF, but at most size-1 of them, NUL-terminates, returns their number and leaves exactly the rest of the stream unread; it never writes outside buf.", "quantifier": "every stream, buffer and size >= 1", "why_tests_cant": "All line lengths around the buffer size and all streams.", "anchors": ["ws.c:get_line"]}
{"id": "C47", "title": "Reading a sequence of lines partitions the stream", "statement": "Repeated get_line calls on a finite stream return consecutive non-empty pieces whose concatenation is the stream and then 0; the header loop therefore terminates on every finite input.", "quantifier": "every finite stream", "why_tests_cant": "Termination for all inputs.", "anchors": ["ws.c:get_line", "ws.c:accept_request"]}
{"id": "C48", "title": "Request line parsing", "statement": "For a request line METHOD SP URL SP ... CRLF shorter than 1024 bytes with METHOD and URL blank- and NUL-free and at most 254 bytes, the request has exactly that method and URL; a longer URL is cut to its first 254 bytes; request_line is the line without CRLF. A request shorter than two bytes writes before the start of the request line copy.", "quantifier": "every request line", "why_tests_cant": "All lengths around 254 and 1024 and all byte values.", "anchors": ["ws.c:accept_request"]}
{"id": "C49", "title": "Header table", "statement": "The request exposes the first 20 header lines that contain ':' in order, as trimmed name and value, whenever names are at most 63 and values at most 255 bytes.", "quantifier": "every header section", "why_tests_cant": "All numbers and lengths of headers.", "anchors": ["ws.c:accept_request"]}
{"id": "C50", "title": "Content-Length, session, proxy address and content type are taken at fixed offsets", "statement": "For header lines written as 'Name: value' with exactly one blank after the colon: content_length is the number, X-Session gives the trimmed value as session, X-Real-IP gives the first 24 bytes of the trimmed value as the request's IP (when the value is not blank). Without the blank the first character of the value is dropped; an Authorization header gives a session starting with 'ion:'; a session of 64 bytes or more is read past its buffer; cookies are taken with the line ending included, whatever their name.", "quantifier": "every header value", "why_tests_cant": "Tests never exercise accept_request.", "anchors": ["ws.c:accept_request"]}
{"id": "C51", "title": "Request bodies", "statement": "With Content-Length n > 0 and at least n bytes available the API handler sees exactly the next n bytes as the form; if the peer closes early the missing bytes are replaced by copies of the last byte received.", "quantifier": "every n and stream", "why_tests_cant": "All truncation points.", "anchors": ["ws.c:handle_api_request"]}
{"id": "C52", "title": "Multipart forms decode to the submitted fields", "statement": "For a multipart body encoding any list of fields (names of visible ASCII without quotes, values without NUL, none containing the boundary or '; filename=\"'), multipart_parse replaces the body with name1=value1&name2=value2&... in order and stays in bounds; reuse of the part buffer for shorter later parts does not leak bytes of earlier ones into the result. Parts without a name before the first field add nothing.", "quantifier": "every list of fields and boundary", "why_tests_cant": "The stale-buffer interaction needs all orders and lengths of parts.", "anchors": ["ws.c:multipart_parse", "ws.c:part_parse"]}
{"id": "C53", "title": "Multipart edge cases that are undefined", "statement": "A part with an empty body and no trailing CRLF makes the parser copy a negative number of bytes; a nameless part of up to 21 bytes after a field (for instance two boundaries a line apart) finds that field's name in the reused buffer and copies a negative number of bytes, too; every file part overruns the 36-byte digest buffer; a boundary longer than 97 bytes overruns the boundary buffer.", "quantifier": "every such request", "why_tests_cant": "Memory errors need not be visible in a test run.", "anchors": ["ws.c:part_parse", "ws.c:save_tmp_file", "ws.c:accept_request"]}
{"id": "C54", "title": "API and static mounts are exclusive", "statement": "A request whose URL starts with /api (any case) is always dispatched to the router with path = URL path without its first four bytes, and never to the static handler; any other request is served statically if its method is GET and answered 400 otherwise, and never reaches a route.", "quantifier": "every request", "why_tests_cant": "All URLs and methods.", "anchors": ["ws.c:accept_request", "ws.h:API_MOUNT"]}
{"id": "C55", "title": "Static path confinement holds only without dot-dot", "statement": "The file served for a static URL path without '..' segments lies under the static root, and a missing file is answered with the index page; with '..' segments files outside the root are served.", "quantifier": "every URL path and file system", "why_tests_cant": "All paths.", "anchors": ["ws.c:handle_static_routes"]}
{"id": "C56", "title": "The directory-index rewrite reads an uninitialised buffer", "statement": "For every static path other than /, /index.html and /favicon.ico the handler's decision whether to append index.html depends on uninitialised stack memory and not on the request.", "quantifier": "every static request and stack content", "why_tests_cant": "Depends on stack garbage.", "anchors": ["ws.c:handle_static_routes"]}
{"id": "C57", "title": "Connection limits: at most max+1", "statement": "In every sequential history of opened and closed connections, for every rule the number of live connections whose path starts with the rule's path never exceeds max_connections + 1, nor per IP max_connections_per_ip + 1, and both bounds are attained (the documented bounds max are exceeded by one).", "quantifier": "every history of connection_add / connection_del, every rule table", "why_tests_cant": "All histories; the off-by-one is only visible at the limit.", "anchors": ["ws.c:connection_add", "ws.c:connection_validate", "ws.c:get_live_stats", "README.md:Resource Limits"]}
{"id": "C58", "title": "Connection accounting", "statement": "In every sequential history with distinct open sockets, the live table contains exactly the admitted and not yet closed connections with their path and IP; a refused connection changes nothing; a connection is refused only if a rule's limit is exceeded or all 1024 slots are taken.", "quantifier": "every history", "why_tests_cant": "All histories and slot reuse patterns.", "anchors": ["ws.c:connection_add", "ws.c:connection_del"]}
{"id": "C59", "title": "Concurrent admission can break the limits and lose connections", "statement": "Because the table is not protected by a lock, there are schedules of two workers in which both are admitted beyond the limit, and schedules in which both claim the same slot so that one live connection disappears from the table; when admissions are atomic neither happens.", "quantifier": "schedules of concurrent workers", "why_tests_cant": "Needs particular interleavings.", "anchors": ["ws.c:connection_add"]}
{"id": "C60", "title": "Limits file parsing", "statement": "load_limits returns, in order, one rule per line that starts with '/' and has a path and at least two further comma-separated fields, with the integer values of these fields, for the first 64 such lines; other lines are ignored.", "quantifier": "every limits file", "why_tests_cant": "All files.", "anchors": ["ws.c:load_limits"]}
{"id": "C61", "title": "max_seconds is never enforced", "statement": "The admission of a connection and the life of admitted ones never depend on the max_seconds field or on time.", "quantifier": "every rule table and history", "why_tests_cant": "Absence of an effect cannot be tested.", "anchors": ["ws.c:connection_validate", "ws.c:load_limits", "README.md:Resource Limits"]}
{"id": "C62", "title": "Every handled connection is closed once and leaves the table as it found it", "statement": "Whenever request handling finishes normally, the socket has been closed exactly once and the connection's entry has been removed, with all other entries unchanged, whichever of the rejection, limit, static or API paths was taken.", "quantifier": "every request, table and routing configuration", "why_tests_cant": "All request paths.", "anchors": ["ws.c:accept_request", "ws.c:connection_close"]}
{"id": "C63", "title": "Accepted sockets are handled once, in order", "statement": "Under every schedule of the acceptor and any number of workers, the sockets handed to handlers followed by those still queued are exactly the sockets enqueued, in order: none is lost, duplicated or invented, and the queue never exceeds its capacity.", "quantifier": "every schedule, capacity and number of workers", "why_tests_cant": "All interleavings.", "anchors": ["ws.c:ws_queue_get", "ws.c:ws_launch", "ws.c:ws_create_queue"]}
{"id": "C64", "title": "No lost wake-up", "statement": "Under every schedule, if a socket is queued and some worker is blocked waiting, then the acceptor is about to signal or some worker is awake and about to take from the queue.", "quantifier": "every schedule", "why_tests_cant": "All interleavings, including spurious wake-ups.", "anchors": ["ws.c:ws_queue_get", "ws.c:ws_launch"]}
{"id": "C65", "title": "A connection that finds the queue full is dropped without being closed", "statement": "When the queue is full the accepted socket is neither queued nor closed; denied addresses are closed and never queued.", "quantifier": "every accept history", "why_tests_cant": "Needs 1024 queued connections.", "anchors": ["ws.c:ws_launch"]}
{"id": "C66", "title": "URL splitting is not isolated between concurrent requests", "statement": "Because splitting uses the process-wide strtok state, there is a schedule of two requests in which one obtains the other's query string; requests split one after another are independent.", "quantifier": "schedules of two requests", "why_tests_cant": "Needs a particular interleaving.", "anchors": ["string_utils.c:split", "http_utils.c:get_path_and_query_string"]}
{"id": "C67", "title": "Log threshold", "statement": "A message is written exactly when its level is at least the configured one, log_level_is_enabled agrees with this, and a fatal message that is written terminates the process.", "quantifier": "every level and every sequence of level changes", "why_tests_cant": "All combinations over histories.", "anchors": ["log.c:__logger", "log.c:log_level_is_enabled", "log.c:log_set_level"]}
{"id": "C68", "title": "Access log entries", "statement": "Each access log entry is the combined-format line with the request's IP, request line, status, response length, referer and user agent taken from the stored headers.", "quantifier": "every request", "why_tests_cant": "All header lists.", "anchors": ["wayuu_log.c:log_access"]}
{"id": "C69", "title": "Command line", "statement": "After option processing the port, bind address, root, SSL mode and log level are those of the last corresponding option (or the defaults), but the static root is always /etc/wayuu/www whatever -r says; over-long -b and -r arguments overrun their buffers.", "quantifier": "every option sequence", "why_tests_cant": "All option sequences.", "anchors": ["main.c:main"]}
{"id": "C70", "title": "A static file is delivered end to end", "statement": "For every well-formed GET of a non-API URL admitted by the connection limits, the whole connection handling sends exactly the file's response (status line, server and content-type headers, session headers, blank line, content), writes one access-log entry with the request's line, address and sizes, closes the socket and removes the table entry.", "quantifier": "every request stream, header section, table, limits and file system", "why_tests_cant": "All streams and header sections.", "anchors": ["ws.c:accept_request", "ws.c:handle_static_routes", "http_utils.c:direct_file"]}
{"id": "C71", "title": "A URL of question marks only is undefined", "statement": "An admitted request whose URL consists of '?' only makes the handler copy a path that was never set.", "quantifier": "every such request", "why_tests_cant": "Reads indeterminate memory, which need not fail in a test.", "anchors": ["http_utils.c:get_path_and_query_string", "ws.c:accept_request"]}
{"id": "C72", "title": "The response body a client sees", "statement": "If the session contains no carriage return, the bytes after the first empty line of a static response are exactly the file. If the session was taken from a cookie ending its header line, it includes the line end, so the header section ends early and the client's body starts with Set-Cookie.", "quantifier": "every file, name and session", "why_tests_cant": "Needs the position of the first empty line in all responses.", "anchors": ["ws.c:accept_request", "http_utils.c:return_headers"]}
{"id": "C73", "title": "check_createdir", "statement": "check_createdir returns true exactly when the path is a directory afterwards, creates a directory only where nothing exists, and changes no other name.", "quantifier": "every file system and path", "why_tests_cant": "All file system states.", "anchors": ["file_utils.c:check_createdir", "file_utils.c:is_dir"]}
{"id": "C74", "title": "Uploads, were the digest buffer large enough", "statement": "If the digest array of save_tmp_file had 129 bytes or more, then for any plain fields followed by a file of any bytes the handler would receive the fields, field=name&tmpfile=tid-digest, and exactly the file's bytes would be stored under /tmp/wayuu/tid-digest with no other name changed; the result always fits the body's buffer when the boundary has two bytes or more, and overruns it exactly when it is longer than the body otherwise. A plain field after a file may still be taken for a file, because the file's header stays in the part buffer.", "quantifier": "every list of fields, file, boundary, digest function, thread and file system", "why_tests_cant": "The real code overruns before the result exists; all bodies.", "anchors": ["ws.c:save_tmp_file", "ws.c:part_parse", "ws.c:multipart_parse"]}
{"id": "C75", "title": "Every loop ends", "statement": "No loop of the code runs forever once its input ends: the handling of a connection, start-up parsing, and every utility loop (splitting, trimming, digest feeding, multipart decoding, header reading, limits and configuration reading, streaming, blank and brace scanning) finishes within a number of rounds bounded by the length of its input, and the result does not depend on any larger bound.", "quantifier": "every input, state and bound", "why_tests_cant": "Non-termination cannot be observed by a finite test; all inputs.", "anchors": ["ws.c:accept_request", "ws.c:multipart_parse", "ws.c:load_limits", "string_utils.c:split", "string_utils.c:rtrim", "string_utils.c:md5sum", "conf_parser.c:parse", "router.c:router_resolve_route", "http_utils.c:send_stream"]}
{"id": "C76", "title": "Limits hold across workers, except for reused descriptors", "statement": "In every interleaving of the accept loop and the workers in which accept() does not return a descriptor that some worker has closed but not yet removed from the connection table, the table holds exactly the admitted connections and each limit bounds them as in a sequential history. Since connection_close closes the descriptor before removing its entry, a reused descriptor's new entry is removed instead: with n+1 workers any n connections can be served at a time whatever the limits, with an empty table.", "quantifier": "every schedule, number of workers, rules, queue capacity and descriptor limit", "why_tests_cant": "Depends on the interleaving of threads and on descriptor reuse.", "anchors": ["ws.c:connection_close", "ws.c:connection_add", "ws.c:connection_del", "ws.c:ws_launch"]}
{"id": "C77", "title": "Where descriptors are", "statement": "In every interleaving each open client descriptor is in exactly one place: the work queue, a worker, or dropped because the queue was full. A dropped descriptor stays open for ever. The process exits exactly when accept() finds no descriptor left, which from every running state enough connections bring about; if the descriptor limit is at most the queue's capacity none is ever dropped.", "quantifier": "every schedule, number of workers, rules, queue capacity and descriptor limit", "why_tests_cant": "Descriptor leaks accumulate over unbounded runs.", "anchors": ["ws.c:ws_launch", "ws.c:ws_queue_add", "ws.c:connection_close"]}
{"id": "C78", "title": "Blocks of the configuration code", "statement": "parse, new_conf_item_with_values, new_serializable, write_conf and serializable_to_string never read, write or free a block that is not live, provided no item is used again after new_serializable took it (then, or when the same item is given twice, the behaviour is undefined) and the path of a written serializable is a heap block. parse leaves behind exactly one empty string for every blank key and every blank value it read; write_conf one for every empty key, and everything when the file cannot be opened; serializable_to_string the text of every item.", "quantifier": "every heap, file, flag table, list of items and path", "why_tests_cant": "Leaks and double frees depend on the contents of every line and on the history of the heap.", "anchors": ["conf_parser.c:parse", "conf_parser.c:conf_parse_first_pass", "conf_parser.c:conf_parse_multi", "conf_parser.c:free_conf_item", "conf_parser.c:new_serializable", "conf_parser.c:write_conf", "conf_parser.c:serializable_to_string"]}
{"id": "C79", "title": "Text of a serializable", "statement": "serializable_to_string gives [path=P,n_items=N followed by a comma and the line of each item and ], when that has at most 1023 bytes; when it has more the behaviour is undefined.", "quantifier": "every path and list of items", "why_tests_cant": "The overrun happens at one exact length over all combinations.", "anchors": ["conf_parser.c:serializable_to_string", "conf_parser.c:conf_item_to_string"]}
{"id": "C80", "title": "API requests from the socket to the handler", "statement": "An admitted request below the API mount reaches the handler of the first matching route (its filter first, which may stop it) with method, path, query, headers, session, address and body exactly as sent, a parametric route adding NAME=VALUE and a multipart form its fields; then the socket is closed and leaves the table. An unmatched request gets one 400 response. Three requests are undefined behaviour whatever the application: a body sent to a parametric route, a method and path of 254 bytes or more together, and a file upload.", "quantifier": "every stream, route table, application, connection table and file system", "why_tests_cant": "Composition of reading, admission, routing and decoding over all streams; the real process crashes on the undefined ones.", "anchors": ["ws.c:accept_request", "ws.c:handle_api_request", "ws.c:multipart_parse", "router.c:router_handle_request"]}
{"id": "C81", "title": "Access log lines", "statement": "Whatever a client sends, the logged request line, referer and user agent contain no line feed, and neither does the address when every X-Real-IP header has a value; an entry is then exactly one line. An X-Real-IP header with a blank value makes the logged address the rest of its own line, so that a client can break its entry over two lines. Without double quotes in the quoted fields and spaces in the address the line determines the entry; quotes are not escaped, so otherwise it does not.", "quantifier": "every stream, application, entry and time stamp", "why_tests_cant": "Log injection is a claim about all byte streams.", "anchors": ["wayuu_log.c:log_access", "ws.c:accept_request", "http_utils.c:http_get_header"]}
{"id": "C82", "title": "Blocks left behind by a request", "statement": "A request that can be answered frees no block twice, none that is not its own and nothing that is not a block. It leaves behind exactly 2 blocks when its method is bad, 3 when it is not admitted, and otherwise 6 plus one for every content type given plus one for each of Referer and User-Agent that is given, empty and logged; an API request also its body if one was announced and the form made of a path parameter. So each accepted connection leaves at least one block, each served one at least three, and memory grows with every connection.", "quantifier": "every heap, stream, route table, file system, connection table and application that frees what it allocates", "why_tests_cant": "Leaks are invisible in the responses and depend on every header line of the stream.", "anchors": ["ws.c:accept_request", "ws.c:handle_static_routes", "ws.c:handle_api_request", "http_utils.c:get_path_and_query_string", "http_utils.c:http_get_header", "http_utils.c:return_headers_with_mime", "router.c:router_handle_request", "wayuu_log.c:log_access", "string_utils.c:split", "string_utils.c:free_str_list_t"]}
{"id": "C83", "title": "Time stamps", "statement": "The time stamps of the logs show the date and the time of day, in UTC, that the calendar gives to the second: dd/Mon/yyyy:hh:mm:ss +0000 in the access log, which determines the second, and a stamp with a two-digit year in the trace log, which is the same for two times exactly when they agree up to the century. The conversion is undefined exactly from the second at which the year no longer fits an int. gmtime's result is one structure shared by all threads: a worker that logs alone shows its own time, but with two workers an entry can show a time that nobody asked for.", "quantifier": "every second from the epoch on; every interleaving of the workers", "why_tests_cant": "Billions of days and all interleavings; the wrong stamp needs a preemption between two instructions.", "anchors": ["log.c:format_timestamp", "log.c:format_ts_common_log", "wayuu_log.c:log_access"]}
{"id": "C84", "title": "Response times", "statement": "The response time of an access log entry is the elapsed milliseconds, exactly and with three decimals, for all durations below 8796093022208000 ms, and the next one is wrong. It differs from the true time between the two readings by less than one millisecond. When the clock was set back in between the unsigned difference wraps: by up to 1024 ms the entry shows 18446744073709552.000 seconds, by more still over nine quadrillion.", "quantifier": "every pair of readings of the clock, at most 2^63 ms apart when it was set back", "why_tests_cant": "The rounding error begins at one exact duration; setting the clock back during a request is not tested.", "anchors": ["wayuu_log.c:epoch_millis", "wayuu_log.c:response_time", "ws.c:api_request_new"]}
{"id": "C85", "title": "Start of the server", "statement": "Started with rules it can read, the server reaches its accept loop exactly when the upload directory exists or can be made, TLS if wanted has a context, certificate and key, and socket, bind (to the port's last 16 bits) and listen succeed; certificate and rules are read and the port bound before any worker is started, and workers before listening. Otherwise the process ends and its last message names the first thing that is missing; workers exist then only if listening failed. A start is undefined only through the rules file. Failures of pthread_create are ignored: it can accept connections without any worker. With the log level above FATAL, which main never sets, no failure but those of TLS ends the process.", "quantifier": "every machine (answers of the system calls), configuration, command line, file system and log state", "why_tests_cant": "Each failing system call and all their combinations, with the order of what was already done.", "anchors": ["ws.c:ws_launch", "ws.c:create_context", "ws.c:configure_context", "ws.c:wayuu_failed", "main.c:main"]}
{"id": "C86", "title": "Addresses in the allow and deny lists", "statement": "The text of a peer's address has at most 15 characters, digits and dots only, and determines the address. In a list of addresses an entry is found for exactly those addresses that agree with it in the two middle numbers, whose first number is written as the end of the entry's first and whose last number as the beginning of the entry's last; such lists decide who is served. An entry with one digit in first and last number is exact; others hit up to nine addresses.", "quantifier": "all 2^32 addresses, lists of any number of entries, file system and root", "why_tests_cant": "All pairs of addresses; a false match needs an unlucky pair.", "anchors": ["ws.c:allowed_address", "ws.c:ws_launch", "file_utils.c:find_in_file"]}
{"id": "C87", "title": "The JSON functions free what they allocate, except in listed cases", "statement": "json_array_of_strings, json_array_of_ints, json_key_value, json_array_of_entities and return_response leave their result and nothing else; return_json_list frees each element, the element array, every serialised text, the array of texts and the JSON text exactly once. The exceptions: a list of one element whose text is empty leaves one block (the empty result of join is taken for a literal); json_array_of_strings with a NULL in front frees a literal; an error made by new_error_with_values stays after the *_with_error response; empty logged headers stay.", "quantifier": "every heap, every list, every serializer that returns a new block or NULL", "why_tests_cant": "Leaks and bad frees have no visible effect in a test run.", "anchors": ["json_utils.c:json_array_of_strings", "json_utils.c:json_array_of_entities", "json_utils.c:json_array_of_ints", "string_utils.c:join", "http_utils.c:return_json_list", "http_utils.c:wayuu_error_t_json_serializer", "http_utils.c:return_response"]}
{"id": "C88", "title": "Sends that fail", "statement": "What a response gives to the socket call by call is determined; what reaches the peer is a beginning of each call's data, in every combination, and all of it exactly when every call sends everything. When nothing gets through after the first incomplete call, a beginning of the response arrives. The program never notices: the access log reports a complete response of which nothing arrived. A client can tell from the length that a JSON body is cut, but a cut static file is the complete response of a shorter file and a stream with a lost line that of another stream. Calls without data happen exactly for empty JSON data, empty files and stream lines that begin with a NUL. As main starts it no send can kill the process.", "quantifier": "every request, response and behaviour of the network", "why_tests_cant": "Partial sends depend on the peer and the network; no test can produce all combinations.", "anchors": ["http_utils.c:http_print", "http_utils.c:send_http_status", "http_utils.c:return_json_with_status", "http_utils.c:direct_file", "http_utils.c:return_json_stream", "main.c:main"]}
{"id": "C89", "title": "Reads that fail", "statement": "A read that fails ends a line. At the start of a header line it has exactly the effect of an empty line sent there, so that the remaining headers are read as the body; in the body it has exactly the effect of sending the byte before it again. A request line is used as far as it came and loses its last two bytes in the log. If fewer than two bytes come before the first failure - after every failed TLS handshake, which is only logged - the server writes before the start of a heap object, whatever follows. So one failed read can change what a handler sees.", "quantifier": "every sequence of successful and failed reads, route table, application and file system", "why_tests_cant": "Failed reads in the middle of a request need a special TLS peer; all positions matter.", "anchors": ["ws.c:get_line", "ws.c:accept_request", "ws.c:handle_api_request", "http_utils.c:http_read_char"]}
{"id": "C90", "title": "Messages in the application log", "statement": "The messages of a request, in order, are determined: request line and stored headers at TRACE; the reason of a refusal, the static name tried, the API request with its session token, parameters and the chosen route at DEBUG. Logging does not change the result of a request, and a logger that is not closed writes exactly the messages of its level. At the level main sets without -d, only three things are written: a static name that is not a file, a nameless form part (once for each), and an upload that cannot be opened; none holds the session token. Each is one line unless X-Real-IP is blank. http_log_headers writes the number of headers and each one if DEBUG is enabled, and is undefined then if a stored name or value filled its array.", "quantifier": "every request, configuration, file system, route table and logger state", "why_tests_cant": "Messages depend on the combination of request, limits, files and level; tests do not read the log.", "anchors": ["ws.c:accept_request", "ws.c:handle_api_request", "ws.c:handle_static_routes", "ws.c:connection_add", "router.c:router_handle_request", "ws.c:multipart_parse", "http_utils.c:direct_file", "http_utils.c:http_log_headers", "main.c:main"]}
{"id": "C91", "title": "Reading the application log back", "statement": "The bytes __logger writes are unambiguous when one thread logs: two sequences of messages that give the same bytes have, one by one, the same thread, level, file, function, line and text, and times that look the same - provided that no text has a line feed followed by a digit, and this condition is needed. No request can break it: whatever a client sends, no message of ws.c, router.c, http_utils.c or file_utils.c has a line feed before a digit, so that no client can forge entries. The same holds for several threads if each message's three stdio calls are consecutive; since __logger takes no lock they need not be, and then two different attributions of texts to threads give the same bytes. If each message is one line, the number of lines is the number of messages in any interleaving.", "quantifier": "for all sequences of messages, all requests and contents of header fields and bodies, all numbers of threads and all schedules of their stdio calls", "why_tests_cant": "A test writes a few messages and compares lines; that no byte sequence from the network can yield a line feed before a digit in any message, and that reading back is unique, are statements about all inputs; the mixing of two threads' lines depends on the schedule", "anchors": ["log.c:30-31", "log.c:63-92", "ws.c:496", "ws.c:568", "ws.c:224", "ws.c:285-287", "router.c:115", "file_utils.c:109"]}
{"id": "C92", "title": "What a request can change and learn", "statement": "Whatever bytes arrive: a request handled to its end leaves every file as it was (md5sum's 36-byte array makes every file upload undefined), and even with a longer array it changes no name but /tmp/wayuu and /tmp/wayuu/<worker>-<hexadecimal digits>. Outside the API the answer is 400, 429, nothing, or a file below the document root with the session's header lines, whose value has a line feed at most at its end, and the access log has the matching entry. The result depends on the file system only through the names the document root leads to. Requests handled one after another each get what they would have got alone; with a longer array and the document root on the upload directory this is false.", "quantifier": "every byte stream, file system, configuration, application that leaves the socket alone, connection table and sequence of requests", "why_tests_cant": "Absence of effects and of dependence is a statement about all inputs and pairs of file systems.", "anchors": ["ws.c:accept_request", "ws.c:save_tmp_file", "ws.c:multipart_parse", "ws.c:handle_static_routes", "ws.c:handle_api_request", "http_utils.c:direct_file", "file_utils.c:write_file", "file_utils.c:check_createdir"]}
{"id": "C93", "title": "Memory for request bodies", "statement": "The size of five blocks is chosen by the client through Content-Length, and no refusal by malloc or calloc is handled: a request completes exactly as if all memory had been there, or is undefined. The block for the body is written to before a byte of the body is read, so a request of at most 50 bytes without a body stops the server when fewer than n + 1 bytes are left, for any n below 2^31, and makes it store n bytes otherwise. A multipart body needs three blocks of its length and never more than five; the one for the parts only if the body has two boundaries. If blocks of up to 2^31 bytes are given, every connection goes as if memory were unlimited.", "quantifier": "every byte stream, every answer of the allocator to every single request, configuration and application", "why_tests_cant": "Allocation failures depend on the machine and the load; no test makes each single allocation fail.", "anchors": ["ws.c:handle_api_request", "ws.c:multipart_parse", "ws.c:part_parse", "ws.c:accept_request"]}
{"id": "C94", "title": "Every admitted connection is served if handlers return", "statement": "The accept loop and the workers take at most 2n + 11a + r + 3w steps for n workers, a admitted and r denied connections and w spurious wake-ups (the bound is reached), so without new connections they come to rest. They come to rest only with every admitted connection handled or dropped for a full queue, the mutex free and all workers waiting, and from every state the server can be in it gets there by its own steps. If handlers do not return the property fails: n silent clients bring a server of n workers to a state after which no connection is ever handled, whatever arrives; the code sets no timeout on client sockets.", "quantifier": "every number of workers, capacity, sequence of connections and schedule of the threads", "why_tests_cant": "Termination and absence of deadlock are statements about all schedules.", "anchors": ["ws.c:ws_launch", "ws.c:ws_queue_add", "ws.c:ws_queue_get", "ws.c:ws_connection_handler"]}
{"id": "C95", "title": "Requests handled at the same time", "statement": "However the steps of the worker threads interleave, whatever descriptors the connections have and whatever the handlers do: each connection that is answered gets the answer it would get with nothing else going on, or 429; behaviour is undefined only if it is so for one of the requests alone; with at most 1024 threads (the code: 200) a connection is refused only if a limit in force is for its URL, so that without limits every answer is the one alone; every connection is queued, in work or answered once, and they are taken in the order of the queue; files stay as they were; a schedule has at most seven steps for each connection and one that cannot go on has answered all. With a limit the answer can differ from the one alone. (The interrupted splitting of a URL, C66, is excluded.)", "quantifier": "every list of connections, number of threads, schedule, file system, application and limits", "why_tests_cant": "Isolation under all interleavings cannot be tested; the unlocked table makes overwritten and stale entries possible.", "anchors": ["ws.c:ws_connection_handler", "ws.c:accept_request", "ws.c:connection_add", "ws.c:connection_validate", "ws.c:connection_del", "ws.c:connection_close"]}
{"id": "C96", "title": "Who is served", "statement": "In every run of the accept loop and the workers each open descriptor belongs to a client that the allow and deny lists let in as they were when it was accepted; a refused client leaves everything as it was. The rules of the limits file bound, for each path, the connections admitted, and those of each client address whoever it is (maximum plus one; runs in which a descriptor is not given out again before its entry is removed). Exactly one step is undefined: a worker takes a connection whose client has reset it, because getpeername() then fails and the address read is uninitialised; any client let in can do this. An error of accept() ends the server. 'Whoever is served is let in by the current lists' is false.", "quantifier": "every limits file, contents of the lists at each connection, addresses, number of workers, capacity and schedule", "why_tests_cant": "Which client is behind which table entry depends on the whole schedule; a reset between accept and getpeername is a matter of timing.", "anchors": ["ws.c:ws_launch", "ws.c:allowed_address", "ws.c:accept_request", "ws.c:load_limits", "ws.c:connection_add", "ws.c:connection_validate"]}
{"id": "C97", "title": "The access log under several threads", "statement": "Whatever a client sends, the fields of its log entry are short (address at most 24 bytes, request line 1021, referer and user agent 255), if the application does not lengthen them, and the library's functions do not; its line has at most 1680 bytes whatever the clocks say, and so is written with one append. Therefore, however the threads' calls interleave, the log file is at every moment what it was before, followed by whole lines, each thread's in its own order, and every such order can happen. An application that logs a longer request line can get another thread's line inside its own.", "quantifier": "every request, application that keeps the fields short, number of threads, sequence of requests of each thread and schedule of their writes", "why_tests_cant": "Whether lines can be torn depends on schedules and on the longest possible line over all requests.", "anchors": ["wayuu_log.c:log_access", "wayuu_log.c:response_time", "ws.c:accept_request", "http_utils.c:http_get_header"]}
{"id": "C98", "title": "Exactly which requests are undefined", "statement": "Every byte stream has a first line, method, URL and header fields in the sense of a small specification that looks at the bytes only. A request outside the API is undefined exactly if its first line has fewer than two bytes; or its method is allowed and the URL runs to the end of the 1024-byte buffer; or it is admitted and has a session line of 74 bytes or a boundary of 98, a URL that is empty or of question marks only or has more than 50 pieces, or, where an answer is logged (not GET, or a file is found), a Referer or User-Agent of 256 bytes, the first of its name among the first twenty fields. Every other request is handled to the end. What is wrong before the URL decides who answers is undefined for the API too.", "quantifier": "every byte stream, configuration whose own paths fit, file system, connection table and peer address", "why_tests_cant": "Absence of undefined behaviour for all other streams is a statement about all inputs; fuzzing finds some that are undefined.", "anchors": ["ws.c:accept_request", "ws.c:get_line", "ws.c:handle_static_routes", "http_utils.c:http_get_header", "http_utils.c:direct_file", "wayuu_log.c:log_access"]}
{"id": "C99", "title": "Exactly which API requests are undefined", "statement": "An admitted request to the API that is read without harm is undefined exactly if its method and the path below the mount have 254 bytes or more together; or the first route that matches has a parameter whose name is longer than twice the prefix plus 8 or, with a form that is not empty, whose text does not fit behind it into the announced length; or the request is rejected (no route, or one without handler) and a Referer or User-Agent of 256 bytes would be logged; or if it has a multipart body without a form text (C100). Every other one is handled by the API to the end; a request with a bad method or over a limit is answered whatever follows its first line. A server all of whose requests are harmless in this sense and that of C98 never gets into undefined behaviour, however its threads interleave.", "quantifier": "every byte stream, route table, body, file system, application, connection table, number of threads and schedule", "why_tests_cant": "Absence of undefined behaviour for all other requests and all schedules is not testable.", "anchors": ["ws.c:accept_request", "ws.c:handle_api_request", "router.c:router_handle_request", "router.c:router_extract_param", "ws.c:multipart_parse", "ws.c:ws_connection_handler"]}
{"id": "C100", "title": "The multipart decoder on every body", "statement": "For every body and boundary of two or more bytes the decoder has a defined effect exactly if the body has a form text in the sense of a small specification that speaks of parts, marks and blank lines only; the form is then that text at the start of the body's block, without NUL and not longer than the body, and no file is touched; in all other cases behaviour is undefined. For clean bodies this is the text of C52. A body whose blank line precedes the name has its name counted twice: with more than 2 * (length of the boundary) + 5 bytes of it the form is written beyond its block. What is left of one part can be read as part of the next.", "quantifier": "every body below 2^31 bytes, boundary and file system", "why_tests_cant": "Bodies are unbounded, and the parts influence each other through the shared block; a test sees single bodies.", "anchors": ["ws.c:multipart_parse", "ws.c:part_parse", "ws.c:save_tmp_file"]}
{"id": "C101", "title": "Exactly the harmless requests are defined", "statement": "For every byte stream whatsoever, to the API or not, the effect of the request is defined exactly if the request is harmless in the sense of the specification of C98 to C100. A server without limits gets into undefined behaviour in some schedule of its threads exactly if one of the requests is not harmless; then no schedule avoids it: whatever the threads have done so far, some thread can go on, and behaviour is undefined after at most seven steps for each connection.", "quantifier": "every byte stream, configuration whose own paths fit, route table, file system, application, connection table; every list of connections, number of threads up to 1024 and schedule", "why_tests_cant": "An exact characterisation over all byte streams, and inevitability over all schedules, cannot be tested.", "anchors": ["ws.c:accept_request", "ws.c:handle_api_request", "ws.c:multipart_parse", "router.c:router_handle_request", "ws.c:ws_connection_handler"]}
{"id": "C102", "title": "Splitting URLs in several threads", "statement": "strtok keeps its position in one static pointer, and split frees the copy it works on. With two or more threads no two requests that get as far as the splitting of their URLs are safe together: there is always a schedule in which one thread reads the other's freed copy, although both requests are harmless and even if neither URL has a query. In another schedule the first request gets the query of the second one, which is left without. A lock held over the splitting would repair this: the schedules that remain give exactly the behaviour of C95, C99 and C101, each answer is the one the request gets alone, behaviour is undefined only if one of the requests is not harmless, the threads do not block each other for ever and every schedule ends. A server with one thread behaves as with the lock.", "quantifier": "every pair of admitted requests, number of threads and file system; every list of connections and schedule", "why_tests_cant": "The interleavings that go wrong are rare and timing dependent; that a lock suffices is a statement about all schedules.", "anchors": ["string_utils.c:split", "http_utils.c:get_path_and_query_string", "ws.c:accept_request", "ws.c:ws_connection_handler"]}
{"id": "C103", "title": "Exactly which starts and configurations are undefined", "statement": "Reading a configuration file is undefined exactly if it is missing and its path has more than 98 bytes; or its lines of at most 511 bytes, each up to a NUL, reach one without '=' although the path has more than 86 bytes, one of '=' and blanks only, or one of a multi-valued key with more than 20 values. Reading the limits is undefined exactly if the root has more than 276 bytes or a line starting with '/' has a path of more than 511 bytes before 64 rules are complete, whether or not the line is a rule. Admitting a peer is undefined exactly if the root has more than 277 bytes, the deny list has 8192 bytes, or the peer is not denied and the allow list has. The command line is undefined exactly if an address of 24 bytes or a root of 256 comes before any option that ends the program. The whole start is undefined exactly if the command line is, or the log file, upload directory and TLS files are there and the limits are.", "quantifier": "every file system, path, list of flags, root, peer, command line and every answer of the system calls", "why_tests_cant": "Files and command lines are unbounded; that everything else is defined is a statement about all of them.", "anchors": ["conf_parser.c:parse", "ws.c:load_limits", "ws.c:allowed_address", "file_utils.c:find_in_file", "main.c:main", "ws.c:ws_launch"]}
{"id": "C104", "title": "The whole program, from the command line to the answers", "statement": "A program run is the command line, the files, what the system calls answer, any list of connections and any schedule of main thread and workers. If it gets somewhere, it was asked for its configuration and nothing it needs was missing; every connection taken was turned away exactly if the address lists say so, or queued, or (only if more than 1024 were to come) left open; the queued ones, never more than 1024, are taken in the order they came; those taken are answered or in work, each once; each answer is the one the connection would get alone, or 429, and 429 only if a rule in force is for its URL; no file is touched but the upload directory; with a worker the program rests after at most eight steps for each connection with nothing left to do. Some schedule is undefined exactly if the start is (C103), or the lists are for some peer, or there is a worker and a peer the lists let in has sent a request that is not harmless under the limits (C101). Files whose names do not begin with the static root and that are not limits or lists of a root the command line names make no difference to anything in any schedule.", "quantifier": "every command line, file system, answer of the system calls, route table, list of connections with their bytes, and schedule", "why_tests_cant": "End-to-end statements over all configurations, all byte streams and all schedules; non-interference relates pairs of executions.", "anchors": ["main.c:main", "ws.c:ws_launch", "ws.c:allowed_address", "ws.c:load_limits", "ws.c:ws_connection_handler", "ws.c:accept_request", "ws.c:ws_queue_add"]}
{"id": "C105", "title": "Access to live_connections without a lock", "statement": "For each step of a worker the slots of live_connections it reads and the one it writes are stated, and are right: other slots make no difference to it and stay as they are, and those listed do change or do make a difference. With two or more threads no two requests are safe together: if the first is answered other than with 400 or 429 and the second is answered at all, some schedule has the two threads about to access the same slot, one to write it. With one thread there is no such race. A mutex over connection_add and connection_del would repair this: no schedule has a race, what happens could happen without it, the connections in service never exceed a limit by more than one, in total or per address, each has its entry in the table, the threads never block each other for ever and a schedule has at most eleven steps for each connection. As the code is, two connections can be in service where the limit lets in one, and a connection can be in service without an entry.", "quantifier": "every list of connections, number of threads, schedule, limits and application; every pair of requests", "why_tests_cant": "A data race shows only in rare schedules; that a lock suffices is a statement about all of them.", "anchors": ["ws.c:connection_add", "ws.c:connection_validate", "ws.c:get_live_stats", "ws.c:connection_del", "ws.c:connection_close", "ws.c:ws_connection_handler"]}
{"id": "C106", "title": "A request when memory is short", "statement": "Every block that reading and answering a request outside the API over plain HTTP asks malloc, calloc or strdup for may be refused, each on its own. If none is refused, every connection goes as without the question. A request that would be handled to the end is undefined exactly if a block it wants is refused, and which blocks it wants is stated from its bytes: three by every connection, four or five for each of the first 20 header fields, one per piece of the URL, and so on. Otherwise it is answered the same, with one exception: a static file whose content gets no block is answered with its headers alone, and logged as 200 with the full length. Only that block and the copy of the query text are never missed. Whatever is refused, a connection that is handled to the end, to the API or not, has the effect it has with all blocks given, that file and a form made from the path apart.", "quantifier": "every byte stream, configuration whose own paths fit, file system, connection table, and every choice of refused blocks", "why_tests_cant": "Tests do not refuse single allocations; the set of blocks grows with the request, and exactness is a statement about all subsets.", "anchors": ["ws.c:accept_request", "string_utils.c:split_once", "string_utils.c:split", "http_utils.c:get_path_and_query_string", "http_utils.c:direct_file", "http_utils.c:return_file", "http_utils.c:log_access", "ws.c:connection_add"]}
{"id": "C107", "title": "An API request when memory is short", "statement": "A request to the API that would be handled to the end is undefined exactly if one of the blocks it wants is refused; which they are is stated from its bytes and the routes: five for every such request, those of its header lines and URL, one for the form and one for the fields, one for a part and two for each named part of a body in parts, two for a parameter in the path and one for the longer form, and those of the log if there is no handler. Otherwise the application is called as with all blocks given, with one exception: a form that is to be made from the path and gets no block is NULL when the application is called. A request that is turned away wants four or five blocks and no others.", "quantifier": "every byte stream, set of routes, limits and application, connection table, and every choice of refused blocks", "why_tests_cant": "Tests do not refuse single allocations; the blocks depend on the parts of the body and the route, and exactness is a statement about all subsets.", "anchors": ["ws.c:accept_request", "ws.c:handle_api_request", "ws.c:multipart_parse", "ws.c:part_parse", "router.c:router_handle_request", "router.c:router_extract_param", "string_utils.c:split_once"]}
{"id": "C108", "title": "Starting and accepting connections when memory is short", "statement": "Every block the program asks for outside its requests may be refused, each on its own: the table of connections, the limits, the queue and its elements, the text of each peer's address, and the two blocks each with which the deny and allow lists are read for each peer. If none is refused the program is the one of C104. Whatever is refused and whatever the schedule, the behaviour is undefined or nothing at all is different: no refusal is noticed. The start is undefined exactly if it is with enough memory or it gets to its tables and the queue is refused, or the limits are and some line of the limits file begins with a slash. Some schedule of the running program is undefined exactly if one is with enough memory, or that, or a block wanted by a connection to come is refused: its address text; a block to search the deny list if there is one, and one to read it with unless it is empty; the same for the allow list if the peer is not denied; the queue's elements if the peer is let in; and, if there is a worker, the table of connections for any request let in and the limits for one whose method is one of the four. One step of a worker that is defined with enough memory is not exactly if it checks a request and the limits are refused, or it checks one whose path has a rule, or looks for, takes or gives back a place, and the table of connections is.", "quantifier": "every command line, file system, answer of the system calls, route table, list of connections with their bytes, schedule, and every choice of refused blocks", "why_tests_cant": "Tests do not refuse single allocations, and the failures show only after a start that looks successful; exactness is a statement about all subsets, connections and schedules.", "anchors": ["ws.c:ws_launch", "ws.c:load_limits", "ws.c:ws_create_queue", "ws.c:allowed_address", "file_utils.c:find_in_file", "file_utils.c:read_file", "ws.c:connection_validate", "ws.c:get_live_stats", "ws.c:connection_add", "ws.c:connection_del"]}
{"id": "C109", "title": "Texts and routes when memory is short", "statement": "Every block that join, the builders of JSON texts and the registration of a route ask for may be refused, each on its own. Each of these functions gives what it gives with enough memory if every block it wants is given, and is undefined if one is refused; which blocks it wants is stated from its arguments: for a joined list the result and a copy of every element that is not NULL (none if the first is NULL), for numbers a block each, for a route the copy of its template only if that has a brace. There are exactly two exceptions, where a refusal is passed on to the caller as NULL: the empty array of strings or numbers, and the join of one element; the empty array of entities is not one.", "quantifier": "all arguments of the functions and every choice of refused blocks", "why_tests_cant": "Tests do not refuse single allocations; the blocks grow with the arguments, and exactness is a statement about all subsets.", "anchors": ["string_utils.c:join", "json_utils.c:json_array_of_strings", "json_utils.c:json_array_of_entities", "json_utils.c:json_array_of_ints", "json_utils.c:json_key_value", "json_utils.c:json_key_value_int", "json_utils.c:json_key_value_bool", "json_utils.c:json_key_value_uint32_t", "router.c:router_add_route", "router.c:router_resolve_route"]}
{"id": "C110", "title": "Configuration files when memory is short", "statement": "Every block that reading and writing a configuration asks for may be refused, each on its own. Reading gives what it gives with enough memory if every block its lines want is given, and is undefined if one is refused; which they are is stated from the lines: three for each line with '=', one for a value, one for a list and one for each of its members, up to the first line without '='. Making a list of items serializable and writing it is undefined exactly if a block it wants is refused; otherwise it reports success, and the file lacks exactly those values whose copies got no block. These are never the first or the last of an item; any other value of an item can go missing like this, so that success does not mean saved.", "quantifier": "every file system, file content, flag table, list of at most 20 items and every choice of refused blocks", "why_tests_cant": "Tests do not refuse single allocations; silent loss shows only for a refusal at one place, and exactness is a statement about all subsets.", "anchors": ["conf_parser.c:parse", "conf_parser.c:conf_parse_first_pass", "conf_parser.c:conf_parse_multi", "conf_parser.c:new_conf_item", "conf_parser.c:new_serializable", "conf_parser.c:copy_conf_item", "conf_parser.c:conf_item_to_string", "conf_parser.c:write_conf"]}
{"id": "C111", "title": "Configuration items and their text when memory is short", "statement": "Every block asked for when configuration items are made, copied, saved and shown may be refused, each on its own. new_conf_item_with_values is undefined exactly if the item itself gets no block; any other refusal leaves NULL in exactly that place and is not reported. Items made and then saved: undefined exactly if a wanted block is refused, where every copy made for an item is wanted (it is copied again) but of the second copies the middle ones of a list are not; else the file holds the values whose second copies got a block, and the result is that of success. The text serializable_to_string makes is undefined exactly if a wanted block is refused or what is left of the items takes more than 1023 bytes; else it is their text, which may lack values without notice. With every block given these are the functions of C22 and C79.", "quantifier": "every list of up to 20 items with up to 20 values each, path, file system, and every choice of refused blocks", "why_tests_cant": "Tests do not refuse single allocations; which copies are needed depends on their place in the list, and exactness is a statement about all subsets.", "anchors": ["conf_parser.c:new_conf_item_with_values", "conf_parser.c:copy_conf_item", "conf_parser.c:new_serializable", "conf_parser.c:serializable_to_string", "conf_parser.c:conf_item_to_string", "conf_parser.c:write_conf"]}
{"id": "C112", "title": "The start when memory for time stamps is short", "statement": "__logger makes a time stamp in a block of its own for every message whose level is enabled, and does not check that it got one. With an answer for the block of each message of ws_launch: the start is as with enough memory if every message it writes gets its block, and else undefined. The messages are exactly: the one about the upload directory if it cannot be made; else that of the first step of the TLS set-up to fail; else that of the socket if there is none; else the address and the port if the level is INFO or below, the failed SO_REUSEADDR, and the one about bind or listen if that fails or, at level INFO or below, the final one. So a start that lacks something need not say so and end: whatever is missing, there is a single refused block that makes the behaviour undefined instead.", "quantifier": "every command line, file system, answer of the system calls, and every choice of refused stamps", "why_tests_cant": "Tests do not refuse single allocations, and do not make the system calls of the start fail at the same time.", "anchors": ["log.c:__logger", "log.c:format_timestamp", "ws.c:ws_launch", "ws.c:create_context", "ws.c:configure_context", "main.c:main"]}
{"id": "C113", "title": "Files that do not open, or are only partly read or written", "statement": "For every way the system may answer fopen, fread, remove and fwrite on a regular file. Checking an address: what a list that does not open shows is nothing, and of one partly read the first bytes; the check is undefined exactly if the root is longer than 277 or a list that did open, and is reached, has 8192 bytes or more; else the address is let in exactly if what was read of the deny list does not show it and there is no allow list or what was read of that one shows it. A failing allow list never lets in anyone not listed in it; a failing deny list lets in everyone it denies. A page that opens is answered with status 200 and its full length, the bytes not read being NUL; one that does not open with 200 and no body. write_file leaves the first bytes taken and no message; if the file does not open after remove succeeded the old content is gone. write_conf answers 0 however few bytes reach the file, -1 with the file unchanged if it does not open. parse of a configuration of which k lines can be read is that of a file with only those lines, so a read error gives 0 and the items so far; load_limits gives no rules if the file does not open, and of a part of it the rules of that part, which may end within a number. With all bytes read and written these are the functions of C22, C25, C27 and C33, parse and load_limits.", "quantifier": "every file system, list, address, page and data, and every answer: which calls fail and after how many bytes", "why_tests_cant": "Tests do not run out of descriptors or disk space at a chosen call, nor read any prefix of a list; which failures open the filter and which close it is a statement about all of them.", "anchors": ["file_utils.c:find_in_file", "file_utils.c:read_file", "file_utils.c:write_file", "ws.c:allowed_address", "http_utils.c:return_file", "http_utils.c:direct_file", "conf_parser.c:write_conf", "conf_parser.c:parse", "ws.c:load_limits"]}
{"id": "C114", "title": "Uploads that cannot be stored", "statement": "For every way the system may answer remove, fopen and fwrite for each file of a multipart/form-data request, with a digest array large enough (with the one in the code every upload is undefined, C53): if decoding the form is defined when all files can be stored, it is defined, and the form handed to the handler is the same, whatever the answers; other files and all directories are the same too; if every file opens, decoding is undefined in exactly the same cases however few bytes are taken. A file that opens holds the first bytes taken; one that does not is gone if there was one and remove succeeded, else as it was. So a file named by tmpfile= in the form need not exist, and may be shorter than what was sent, and nothing in the form tells.", "quantifier": "every request body, boundary, file system and thread, and every answer for every part", "why_tests_cant": "Tests do not run out of descriptors or space in the middle of a request; that no answer can be seen in the form is a statement about all of them.", "anchors": ["ws.c:save_tmp_file", "ws.c:part_parse", "ws.c:multipart_parse", "file_utils.c:write_file"]}
