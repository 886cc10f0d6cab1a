{"id": "C01", "title": "Request packages round-trip through the wire format", "statement": "If BoltRequest.to_stream() returns bytes for a package, BoltRequest.from_stream() of exactly those bytes returns a package with the same proto, ptype, cmdcode, ver2, request_id, codec, timeout, header map (same keys, values and order) and content.", "quantifier": "every request package: any header map of Unicode strings, any content, every legal value of every field", "why_tests_cant": "the value space (header maps, contents, 32-bit ids and timeouts, Unicode strings) is unbounded; tests try a couple of literals", "anchors": ["anthunder/protocol/_package_base.py:from_stream,bolt_header_from_stream,bolt_content_from_stream", "anthunder/protocol/_request_pkg.py:to_stream", "anthunder/protocol/_sofa_header.py:SofaHeader"]}
{"id": "C02", "title": "Response packages round-trip through the wire format", "statement": "If BoltResponse.to_stream() returns bytes for a package, BoltResponse.from_stream() of those bytes returns a package with the same proto, ptype, cmdcode, ver2, request_id, codec, respstatus, header map and content.", "quantifier": "every response package", "why_tests_cant": "unbounded value space", "anchors": ["anthunder/protocol/_package_base.py:from_stream", "anthunder/protocol/_response_pkg.py:to_stream"]}
{"id": "C03", "title": "Encoded frames follow the documented byte layout", "statement": "An encoded request is a 22-byte fixed part followed by class name, header bytes and content; an encoded response has a 20-byte fixed part. Each field sits at the offset given by the diagram in protocol/__init__.py, big-endian, signed fields in two's complement; the three length fields equal the lengths of the three parts; nothing follows the content.", "quantifier": "every package that encodes", "why_tests_cant": "the layout must hold for all values, including negative timeouts and lengths with a high byte", "anchors": ["anthunder/protocol/__init__.py", "anthunder/protocol/_request_pkg.py:fmt,to_stream", "anthunder/protocol/_response_pkg.py:fmt,to_stream"]}
{"id": "C04", "title": "Encoding succeeds exactly on representable packages and never truncates", "statement": "to_stream() returns bytes if and only if request_id is an int in the signed 32-bit range, content is bytes shorter than 2^32, the serialized header is at most 65535 bytes and (requests) timeout is an int in the signed 32-bit range. A non-int request_id or non-bytes content raises ParamTypeError; every other failure raises EncodeError. No field is silently truncated or wrapped.", "quantifier": "every package that can be constructed", "why_tests_cant": "boundary values in several dimensions at once (65535/65536-byte headers, 2^31, 2^32) are not enumerable", "anchors": ["anthunder/protocol/_package_base.py:validate", "anthunder/protocol/_request_pkg.py:to_stream", "anthunder/protocol/_response_pkg.py:to_stream"]}
{"id": "C05", "title": "Decoding arbitrary bytes yields a package or DecodeError, never anything else", "statement": "from_stream() on any byte string terminates with either a package or DecodeError. It accepts exactly the strings whose length equals the fixed part plus the three declared lengths, whose enumerated fields are legal codes and whose header part is a well-formed sequence of key/value strings.", "quantifier": "every byte string", "why_tests_cant": "hostile inputs are unbounded; a test cannot show that no input escapes with another exception", "anchors": ["anthunder/protocol/_package_base.py:from_stream,bolt_header_from_stream,bolt_content_from_stream,__init__", "anthunder/protocol/constants.py"]}
{"id": "C06", "title": "Frames are self-delimiting", "statement": "No proper prefix and no proper extension of a decodable frame decodes, and two streams formed by concatenating frames are equal only if the frame sequences are equal.", "quantifier": "every pair of frames / frame sequences", "why_tests_cant": "quantifies over all byte strings", "anchors": ["anthunder/protocol/_package_base.py:from_stream,bolt_header_size"]}
{"id": "C07", "title": "Header maps round-trip, including order and Unicode", "statement": "SofaHeader.from_bytes(h.to_bytes()) equals h, with the same iteration order, whenever to_bytes() succeeds; len(h) equals the number of serialized bytes.", "quantifier": "every header map with string keys and values", "why_tests_cant": "all Unicode strings and all map sizes", "anchors": ["anthunder/protocol/_sofa_header.py:SofaHeader,_str_to_bytes_with_len,_bytes_to_str"]}
{"id": "C08", "title": "Header parsing is total and terminates", "statement": "SofaHeader.from_bytes() on any byte string terminates and yields a map, DecodeError or UnicodeDecodeError. A Java null string (length -1) is read as an empty string and does not disturb the entries after it. Any other negative length, a truncated entry or an odd number of strings is DecodeError.", "quantifier": "every byte string", "why_tests_cant": "HISTORY 0.5.6 records an infinite loop here; only a proof covers every input", "anchors": ["anthunder/protocol/_sofa_header.py:_bytes_to_str,from_bytes"]}
{"id": "C09", "title": "A decoded package can always be forwarded", "statement": "Every package obtained from from_stream() can be encoded again, and decoding the result gives the same package (even if the incoming frame used null strings, repeated keys or a different class name).", "quantifier": "every byte string that decodes", "why_tests_cant": "all inputs", "anchors": ["anthunder/protocol/_package_base.py:from_stream", "anthunder/protocol/_request_pkg.py:to_stream", "anthunder/protocol/_response_pkg.py:to_stream"]}
{"id": "C10", "title": "String payloads are strict UTF-8", "statement": "Strings are written as UTF-8; a byte sequence is accepted as a string if and only if it is the UTF-8 encoding of some string without surrogates, and then decoding returns that string (no overlong forms, no surrogates, nothing above U+10FFFF).", "quantifier": "every string and every byte sequence", "why_tests_cant": "infinite domain", "anchors": ["anthunder/protocol/_sofa_header.py:_str_to_bytes_with_len,_bytes_to_str"]}
{"id": "C11", "title": "A package's wire bytes are fixed when it is built and header items cannot be assigned", "statement": "Assigning header items has no effect: after any sequence of h[k]=v the header map, len(h) and the bytes written by to_stream() are unchanged. Later mutation of the header object by any dict method never makes the emitted lengths inconsistent with the emitted bytes.", "quantifier": "every header and every sequence of mutations after construction", "why_tests_cant": "histories are unbounded", "anchors": ["anthunder/protocol/_sofa_header.py:__setitem__", "anthunder/protocol/_package_base.py:__init__,header_len"]}
{"id": "C12", "title": "Request ids are in range, distinct within a window of 2^31, and cyclic", "statement": "Successive request ids are the consecutive integers modulo 2^31 from the random start; each lies in [0, 2^31-1] so it is always encodable; any 2^31 consecutive ids are pairwise distinct; the sequence never ends.", "quantifier": "every start value and every number of draws", "why_tests_cant": "2^31 values and the wrap-around are out of reach for a test", "anchors": ["anthunder/helpers/request_id.py:RequestId"]}
{"id": "C13", "title": "Trace context survives the trip from client to server", "statement": "Extracting the trace context from the header built by SofaHeader.build_header(spanctx, ...) (directly or after encoding and decoding the request) yields a context with the same trace id, the same rpc id and the same baggage strings.", "quantifier": "every span context and all call parameters", "why_tests_cant": "all baggage maps and id shapes", "anchors": ["anthunder/protocol/_sofa_header.py:build_header", "anthunder/protocol/_rpc_trace_context.py", "mytracer/tracer.py:extract", "mytracer/span_context.py:SpanContext"]}
{"id": "C14", "title": "Derived spans keep the trace id and all baggage, and do not disturb their origin", "statement": "A child or follow-up span has the trace id and every baggage item of the span it refers to, except sofaRpcId; creating it changes no baggage of any existing span.", "quantifier": "every tree of spans built by any sequence of child/follow operations", "why_tests_cant": "histories are unbounded", "anchors": ["mytracer/span_context.py:SpanContext", "mytracer/tracer.py:start_span"]}
{"id": "C15", "title": "Rpc ids survive their textual form", "statement": "Parsing the text of an rpc id (split at dots) gives back an equal rpc id; text in canonical form is reproduced exactly; an id whose last segment is not an integer is rejected.", "quantifier": "every rpc id and every string", "why_tests_cant": "unbounded lengths and numbers", "anchors": ["mytracer/_rpc_id.py:RpcId", "mytracer/span_context.py:SpanContext"]}
{"id": "C16", "title": "Sibling and descendant spans get distinct rpc ids", "statement": "Within one process, all spans derived (by any sequence of child-of and follows-from operations) from one root span have pairwise distinct rpc ids.", "quantifier": "every sequence of derivations", "why_tests_cant": "tests check one short sequence", "anchors": ["mytracer/_rpc_id.py:_new_child_of,_new_follows_from"]}
{"id": "C17", "title": "Generated trace ids are distinct", "statement": "Two trace ids generated on a host by one or several processes differ whenever their millisecond timestamp, sequence number or pid differ; one process never repeats a trace id within 8001 consecutive ones in a millisecond, nor across milliseconds. The id starts with the 8 hex digits of the IPv4 address.", "quantifier": "every pair of generations", "why_tests_cant": "concatenating variable-length numbers can collide; only a proof covers all values", "anchors": ["mytracer/_trace_id.py:TraceId"]}
{"id": "C18", "title": "Span baggage cannot be modified", "statement": "No sequence of span operations changes the baggage of an existing span context.", "quantifier": "every sequence of operations", "why_tests_cant": "unbounded histories", "anchors": ["mytracer/span_context.py:_ImmutableDict", "mytracer/span.py:set_baggage_item"]}
{"id": "C19", "title": "Tags passed when starting a span are recorded on it", "statement": "start_span(name, tags=t) (and new_span(name, **t)) returns a span whose tags are exactly t.", "quantifier": "every tag dict", "why_tests_cant": "tests never pass tags", "anchors": ["mytracer/tracer.py:start_span", "mytracer/helpers.py"]}
{"id": "C20", "title": "The service map is set-once", "statement": "Assigning an existing key of SERVICE_MAP raises KeyError and changes nothing; so an address once set is what every later lookup returns until the key is explicitly removed.", "quantifier": "every sequence of assignments and removals", "why_tests_cant": "unbounded histories", "anchors": ["anthunder/helpers/immutable_dict.py", "anthunder/__init__.py:SERVICE_MAP"]}
{"id": "C21", "title": "Calls are routed to the configured address", "statement": "A call to an interface goes to the address set for it in SERVICE_MAP, to port 12200 of that host if only a host string was set, and to the local mesh 127.0.0.1:12220 if nothing was set.", "quantifier": "every service map and interface", "why_tests_cant": "all maps", "anchors": ["anthunder/client/base.py:_get_address"]}
{"id": "C22", "title": "Subscribe and unsubscribe never break a configured route", "statement": "After any sequence of subscribe/unsubscribe calls, with any mesh outcome for each, every interface routes to its explicit address if it has one and was not unsubscribed, otherwise to the mesh; mesh failures never escape to the caller and never change routing.", "quantifier": "every sequence of calls and mesh outcomes", "why_tests_cant": "unbounded histories with faults", "anchors": ["anthunder/client/base.py:subscribe,unsubscribe", "anthunder/mesh/mesh_client.py"]}
{"id": "C23", "title": "The mesh application registration is performed once", "statement": "However often startup() is called, registration is posted until it first succeeds and never after; startup() returns True exactly when a registration has succeeded and raises otherwise.", "quantifier": "every sequence of startup() calls and server answers", "why_tests_cant": "unbounded histories with faults", "anchors": ["anthunder/mesh/mesh_client.py:startup,_post"]}
{"id": "C24", "title": "A mesh call succeeds only on HTTP 200 with success=true", "statement": "subscribe/unsubscribe/publish/unpublish/startup of the mesh client return normally only if the server answered 200 with a JSON object whose success member is true; in every other case they raise.", "quantifier": "every server answer", "why_tests_cant": "all answers", "anchors": ["anthunder/mesh/mesh_client.py:_post"]}
{"id": "C25", "title": "publish() and unpublish() cover every registered interface", "statement": "When a mesh client is available and every post succeeds, publish() posts exactly one publication per registered interface, in registration order, with the listening port and application name, and unpublish() revokes exactly the same interfaces; without a mesh client nothing is posted; on a failure the error is raised and the posts made are a prefix.", "quantifier": "every registry and every sequence of server answers", "why_tests_cant": "all registries and fault points", "anchors": ["anthunder/listener/base_listener.py:publish,unpublish"]}
{"id": "C26", "title": "The recently-used container is an LRU map of bounded size", "statement": "After any sequence of operations the container holds at most maxsize entries, no key twice, returns the latest value stored for a key that was not evicted or deleted, and evicts the key whose last insertion or read is oldest.", "quantifier": "every operation sequence and every maxsize", "why_tests_cant": "unbounded histories", "anchors": ["mysockpool/recently_used_container.py:RecentlyUsedContainer"]}
{"id": "C27", "title": "Every value leaving the container is disposed exactly once", "statement": "At any time, the values ever stored are exactly the values held plus the values passed to dispose_func, counted with multiplicity.", "quantifier": "every operation sequence", "why_tests_cant": "unbounded histories", "anchors": ["mysockpool/recently_used_container.py:__setitem__,__delitem__,clear"]}
{"id": "C28", "title": "One live pool per key, bounded number of pools, evicted pools closed", "statement": "connection_pool_from_pool_key returns the same pool for the same key until that key is evicted or cleared; at most max_pools pools are retained; each discarded pool is closed exactly once and a retained pool is never closed by the manager.", "quantifier": "every sequence of lookups and clears", "why_tests_cant": "unbounded histories", "anchors": ["mysockpool/pool_manager.py:PoolManager"]}
{"id": "C29", "title": "A connection is never lent twice and the free list is bounded", "statement": "If callers only return connections they were lent, then at any time no connection is both free and lent or lent to two callers, and at most max_free_connections connections are free.", "quantifier": "every sequence of get/put operations and remote drops", "why_tests_cant": "unbounded histories", "anchors": ["mysockpool/connection_pool.py:get_conn,put_conn"]}
{"id": "C30", "title": "A pool never has more than max_connections connections", "statement": "The number of open connections created by a pool (free or lent) never exceeds max_connections.", "quantifier": "every history and every thread interleaving", "why_tests_cant": "depends on interleavings and on histories with dropped connections", "anchors": ["mysockpool/connection_pool.py:_new_conn,get_conn,put_conn"]}
{"id": "C31", "title": "get_conn never hands out a closed connection", "statement": "The connection returned by get_conn() has not been closed by the pool: a pooled connection found dropped is replaced by a fresh one.", "quantifier": "every history", "why_tests_cant": "needs remote drops at particular moments", "anchors": ["mysockpool/connection_pool.py:get_conn", "mysockpool/utils.py"]}
{"id": "C32", "title": "get_conn succeeds while a free connection exists, and capacity is never lost", "statement": "If a free connection is in the pool get_conn() returns one; connections that are no longer in use no longer count against max_connections.", "quantifier": "every history", "why_tests_cant": "the failing histories are at the capacity boundary", "anchors": ["mysockpool/connection_pool.py:get_conn,_new_conn"]}
{"id": "C33", "title": "A closed pool releases everything", "statement": "close() closes every free connection; afterwards get_conn() raises ClosedPoolError, and a connection returned later is closed and never lent again.", "quantifier": "every history before and after close", "why_tests_cant": "unbounded histories", "anchors": ["mysockpool/connection_pool.py:close,get_conn,put_conn"]}
{"id": "C34", "title": "connection_scope gives the connection back exactly once", "statement": "However the body of connection_scope ends (normally or with any exception), the connection it lent is returned to its pool exactly once (or closed if the pool was closed or is full), and if no connection could be obtained nothing is returned.", "quantifier": "every outcome of pool lookup, get_conn and body", "why_tests_cant": "all fault points", "anchors": ["mysockpool/pool_manager.py:connection_scope"]}
{"id": "C35", "title": "The synchronous client reassembles responses whatever the chunking", "statement": "invoke_sync returns the same result for every way the response bytes are split into reads, and never reads a byte beyond the end of the response frame.", "quantifier": "every response frame and every chunking", "why_tests_cant": "exponentially many chunkings", "anchors": ["anthunder/client/client.py:invoke_sync"]}
{"id": "C36", "title": "The synchronous client returns content only for a matching successful response", "statement": "invoke_sync returns a value only if the frame received carries the request id just sent and status SUCCESS, and then it returns that frame's content; an error status raises ServerError, a foreign request id raises ServerError, a malformed frame raises DecodeError, no data before the deadline raises TimeoutError. (Errors of opening the socket that the client opens when it gives the connection back are the subject of C104.)", "quantifier": "every byte stream from the server", "why_tests_cant": "all streams", "anchors": ["anthunder/client/client.py:invoke_sync"]}
{"id": "C37", "title": "The synchronous client does not hang when the server closes the connection", "statement": "If the server closes the connection before a complete response, invoke_sync terminates (with an error).", "quantifier": "every truncated response", "why_tests_cant": "non-termination cannot be observed by a finite test", "anchors": ["anthunder/client/client.py:invoke_sync"]}
{"id": "C38", "title": "The synchronous client sends the whole request or fails", "statement": "When invoke_sync or invoke_oneway goes on to wait for a response / return normally, the complete encoded request has been written to the connection exactly once.", "quantifier": "every request size and every socket behaviour", "why_tests_cant": "partial sends depend on kernel buffers", "anchors": ["anthunder/client/client.py:_raw_invoke", "mysockpool/connection.py:send"]}
{"id": "C39", "title": "The synchronous client reuses pooled connections", "statement": "A connection given back after a successful call is used again by a later call to the same address, and no connection is ever used by two overlapping calls.", "quantifier": "every history of calls", "why_tests_cant": "unbounded histories", "anchors": ["anthunder/client/client.py:_get_pool,invoke_sync,invoke_oneway", "mysockpool/pool_manager.py"]}
{"id": "C40", "title": "The asyncio client never mixes up responses", "statement": "For every interleaving of concurrent calls, response arrivals, connection failures and cancellations, a call returns a response only if that response carries the call's own request id, status SUCCESS and is a response command.", "quantifier": "every schedule, number of calls and byte stream from the servers", "why_tests_cant": "schedules are unbounded", "anchors": ["anthunder/client/aio_client.py:invoke,_send_request,_recv_response"]}
{"id": "C41", "title": "A successful response is delivered to its caller, once; strays and duplicates are ignored", "statement": "Once a successful response for a waiting call has arrived, then whatever happens next (other responses, duplicates with other content, failures of connections, other calls) the call returns exactly that response; responses with unknown ids change nothing.", "quantifier": "every schedule", "why_tests_cant": "schedules are unbounded", "anchors": ["anthunder/client/aio_client.py:invoke,_recv_response"]}
{"id": "C42", "title": "An error status from the server reaches the caller as a server error", "statement": "If the response for a call carries a status other than SUCCESS, the caller gets a ServerError naming the status.", "quantifier": "every status and schedule", "why_tests_cant": "needs all statuses and interleavings", "anchors": ["anthunder/client/aio_client.py:_recv_response,invoke", "anthunder/exceptions.py"]}
{"id": "C43", "title": "Calls pending on a lost connection are completed with an error", "statement": "If the connection a call is waiting on is closed by the server, the call terminates with an error.", "quantifier": "every schedule", "why_tests_cant": "a hang cannot be observed by a finite test", "anchors": ["anthunder/client/aio_client.py:_recv_response,invoke"]}
{"id": "C44", "title": "Heartbeats are sent periodically for as long as the client lives", "statement": "With a mesh that acknowledges heartbeats (cmdcode HEARTBEAT, status SUCCESS, same id), the client keeps sending a heartbeat every interval.", "quantifier": "every number of intervals", "why_tests_cant": "needs unbounded time", "anchors": ["anthunder/client/aio_client.py:_heartbeat_timer,invoke_heartbeat,_recv_response"]}
{"id": "C45", "title": "invoke_oneway sends a one-way request and expects no answer", "statement": "The frame written by invoke_oneway has ptype ONEWAY, and the client keeps no state for it after it is sent.", "quantifier": "every call", "why_tests_cant": "all inputs, both clients", "anchors": ["anthunder/client/aio_client.py:invoke_oneway", "anthunder/client/client.py:invoke_oneway"]}
{"id": "C46", "title": "One connection per address is shared by all calls", "statement": "As long as sending does not fail, at most one connection per address is ever dialed however many calls start concurrently; dialing is mutually exclusive per address.", "quantifier": "every schedule", "why_tests_cant": "races between dials", "anchors": ["anthunder/client/aio_client.py:_get_connection"]}
{"id": "C47", "title": "The asyncio client leaks no bookkeeping", "statement": "When no call is in progress, no request or response entry remains, provided no call was cancelled and every call was answered.", "quantifier": "every schedule ending in quiescence", "why_tests_cant": "unbounded histories", "anchors": ["anthunder/client/aio_client.py:request_mapping,response_mapping,_send_request,_recv_response"]}
{"id": "C48", "title": "The asyncio client stays in step with the byte stream on malformed responses", "statement": "A response whose enumerated fields or header part are malformed does not affect how the following frames on the connection are delimited or delivered, for every chunking of the stream.", "quantifier": "every stream of frames and every chunking", "why_tests_cant": "all streams", "anchors": ["anthunder/client/aio_client.py:_recv_response", "anthunder/protocol/_package_base.py:bolt_content_from_stream"]}
{"id": "C49", "title": "The asyncio server answers with the id of the request and at most once", "statement": "Until the peer closes its side, every frame the server writes carries the request id of a frame it received on that connection, and there is at most one written frame per received frame, for every schedule of handlers.", "quantifier": "every input stream, registry and schedule", "why_tests_cant": "schedules and streams are unbounded", "anchors": ["anthunder/listener/aio_listener.py:_handler_connection,_dispatch"]}
{"id": "C50", "title": "Every two-way request is answered once with the handler's result", "statement": "A well-formed two-way request for a registered method that returns bytes in time is answered by exactly one SUCCESS response with its id and exactly those bytes.", "quantifier": "every request, handler result and schedule", "why_tests_cant": "all results including the empty byte string", "anchors": ["anthunder/listener/aio_listener.py:_dispatch,_handler_connection"]}
{"id": "C51", "title": "One-way requests are never answered", "statement": "No frame is written in reaction to a request of type ONEWAY.", "quantifier": "every request and handler behaviour", "why_tests_cant": "all failure paths", "anchors": ["anthunder/listener/aio_listener.py:_dispatch", "anthunder/listener/sock_listener.py:SockBoltHandler.handle"]}
{"id": "C52", "title": "Heartbeats are acknowledged", "statement": "Every heartbeat frame with a well-formed header part is answered by exactly one frame with cmdcode HEARTBEAT, status SUCCESS and the same request id, and no service is invoked, whatever else is pipelined on the connection.", "quantifier": "every stream and schedule", "why_tests_cant": "all streams", "anchors": ["anthunder/listener/aio_listener.py:_handler_connection", "anthunder/listener/sock_listener.py:SockBoltHandler.handle", "anthunder/command/heartbeat.py"]}
{"id": "C53", "title": "Failures are reported with the documented status", "statement": "Unknown service or method: NO_PROCESSOR; service construction failure: SERVER_EXCEPTION; handler exception: UNKNOWN; handler slower than the request timeout: TIMEOUT; missing service or method name, wrong command code or class name: CLIENT_SEND_ERROR; malformed header part: CODEC_EXCEPTION. Always with the request's id.", "quantifier": "every request and handler behaviour", "why_tests_cant": "all combinations", "anchors": ["anthunder/listener/aio_listener.py:_dispatch,_handler_connection"]}
{"id": "C54", "title": "A malformed request does not affect later requests on the connection", "statement": "After answering a request with CODEC_EXCEPTION or CLIENT_SEND_ERROR the server processes the following frames on the connection as if the bad frame had not been sent.", "quantifier": "every stream containing bad frames", "why_tests_cant": "all streams", "anchors": ["anthunder/listener/aio_listener.py:_handler_connection"]}
{"id": "C55", "title": "Server behaviour does not depend on how the stream is chunked", "statement": "The sequence of requests dispatched and errors answered depends only on the concatenation of the received bytes.", "quantifier": "every stream and every chunking", "why_tests_cant": "exponentially many chunkings", "anchors": ["anthunder/listener/aio_listener.py:_handler_connection"]}
{"id": "C56", "title": "A handler is executed at most once per request, with exactly the request body", "statement": "For every schedule, each received request leads to at most one execution of the named method of the registered service with the request's body; nothing is executed that was not requested; exactly one execution precedes any SUCCESS response.", "quantifier": "every stream, registry and schedule", "why_tests_cant": "schedules are unbounded", "anchors": ["anthunder/listener/aio_listener.py:handle_request,_dispatch"]}
{"id": "C57", "title": "Closing the sending side does not produce spurious answers", "statement": "If the peer half-closes after complete requests, each request is still answered at most once and a request already answered is not answered again.", "quantifier": "every stream and schedule", "why_tests_cant": "timing of close versus handlers", "anchors": ["anthunder/listener/aio_listener.py:_handler_connection"]}
{"id": "C58", "title": "Listeners have separate registries", "statement": "Registering an interface on one listener does not make it callable through another; requests are always served by the registration made last for the interface on that listener.", "quantifier": "every sequence of registrations on any number of listeners", "why_tests_cant": "histories", "anchors": ["anthunder/listener/base_listener.py:BaseHandler.interface_mapping", "anthunder/listener/aio_listener.py:register_interface", "anthunder/listener/sock_listener.py:register_interface,SockListener"]}
{"id": "C59", "title": "The threaded server answers a well-formed request with the handler's result", "statement": "For a complete well-formed request to a registered method returning bytes, the threaded listener writes exactly one response frame, with the request's id, status SUCCESS and those bytes, for every chunking of the input; otherwise (not a heartbeat, not a missing name) it closes without a reply.", "quantifier": "every request and chunking", "why_tests_cant": "all inputs", "anchors": ["anthunder/listener/sock_listener.py:SockBoltHandler.handle,SockServiceHandler.handle_request"]}
{"id": "C60", "title": "The threaded server terminates on truncated input", "statement": "If the client disconnects before sending a complete frame, the handler thread terminates.", "quantifier": "every truncated frame", "why_tests_cant": "non-termination cannot be observed by a finite test", "anchors": ["anthunder/listener/sock_listener.py:_readexactly"]}
{"id": "C61", "title": "End-to-end: a call reaches the named method and returns its result", "statement": "A call invoke_sync(interface, method, content) by a client, transported byte for byte to a server where interface/method is registered, executes that method on exactly content with the caller's trace context, and returns exactly the (non-empty) bytes it returned.", "quantifier": "all interfaces, methods, contents, trace contexts and results", "why_tests_cant": "composition of encoder, transport, dispatcher and decoder over all values", "anchors": ["anthunder/client/aio_client.py:invoke_sync", "anthunder/client/client.py:invoke_sync", "anthunder/listener/aio_listener.py:_handler_connection,_dispatch", "anthunder/listener/sock_listener.py:handle"]}
{"id": "C62", "title": "Every request sent on a connection to the threaded server is answered", "statement": "Each complete request a client sends on one connection to the threaded listener leads to a response frame with its id.", "quantifier": "every sequence of requests on a connection", "why_tests_cant": "all streams", "anchors": ["anthunder/listener/sock_listener.py:SockBoltHandler.handle"]}
{"id": "C63", "title": "One-way requests get no response from the threaded server", "statement": "The threaded listener writes no frame in reaction to a request of type ONEWAY.", "quantifier": "every request and handler result", "why_tests_cant": "all inputs", "anchors": ["anthunder/listener/sock_listener.py:SockBoltHandler.handle"]}
{"id": "C64", "title": "The threaded server reports failures to the client", "statement": "A request for an unknown service or method, a handler that raises, a missing service or method name, and a malformed frame are each answered by a response with the request's id and an error status.", "quantifier": "every request and handler behaviour", "why_tests_cant": "all combinations", "anchors": ["anthunder/listener/sock_listener.py:SockBoltHandler.handle,SockServiceHandler.handle_request"]}
{"id": "C65", "title": "The asyncio client writes whole requests to the right address, at most three times", "statement": "Whatever a call hands to a connection is the complete encoding of its request, and the connection was dialed to the call's address; it does so at most three times; it waits for or returns an answer only after having done so; nothing else is ever written.", "quantifier": "every schedule of calls, failures and cancellations", "why_tests_cant": "schedules are unbounded", "anchors": ["anthunder/client/aio_client.py:invoke,_get_connection"]}
{"id": "C66", "title": "The asyncio client sends a request at most once", "statement": "A call writes its request to at most one connection, once.", "quantifier": "every schedule of calls, failures and cancellations", "why_tests_cant": "needs a flush failing after the write", "anchors": ["anthunder/client/aio_client.py:invoke"]}
{"id": "C67", "title": "A returned value is the one the server's method returned for that very call", "statement": "In any system of one asyncio client and asyncio servers, for every interleaving of their coroutines, executor threads, cancellations, connection failures and partial deliveries: if a call to an interface and method with some content returns a value, then a server reached at the call's address has executed exactly that method on exactly that content for that request, and that execution returned exactly that value. Answers are never mixed up between calls or connections.", "quantifier": "all numbers of calls, connections and servers, all schedules, all chunkings; request ids not repeating", "why_tests_cant": "the schedules of the composed system are unbounded", "anchors": ["anthunder/client/aio_client.py:invoke,_recv_response", "anthunder/listener/aio_listener.py:_handler_connection,_dispatch"]}
{"id": "C68", "title": "Each call executes its method at most once", "statement": "In any such system the server side executes the method of a call at most once, over all connections.", "quantifier": "all schedules", "why_tests_cant": "needs a flush failing after all bytes were delivered", "anchors": ["anthunder/client/aio_client.py:invoke", "anthunder/listener/aio_listener.py:_dispatch"]}
{"id": "C69", "title": "A callback of invoke_async is called at most once, with the value of its call", "statement": "The callback given to invoke_async is called at most once, and only with the value that the server's method returned for that very call; it is called once the call has ended with a value; it is not called for a call that failed, nor after the owner of the returned future has cancelled it.", "quantifier": "all calls in any system of one asyncio client and asyncio servers, all schedules; request ids not repeating", "why_tests_cant": "needs every order of answers, cancellations and failures", "anchors": ["anthunder/client/aio_client.py:invoke_async,callback_wrapper,invoke"]}
{"id": "C70", "title": "timeout_ms bounds invoke_async", "statement": "A callback given to invoke_async with timeout_ms is not called after timeout_ms have passed.", "quantifier": "all calls and schedules", "why_tests_cant": "needs an answer arriving after any delay", "anchors": ["anthunder/client/aio_client.py:invoke_async,callback_wrapper"]}
{"id": "C71", "title": "invoke_sync ends once, in time, with the outcome of its call", "statement": "A call of invoke_sync returns or raises exactly once and at the latest when timeout_ms have passed, whatever the network and the servers do. It returns nothing but the value the server's method returned for that very call, raises TimeoutError only if the time is over, and otherwise ends as the call did.", "quantifier": "all calls in any system of one asyncio client and asyncio servers, all schedules; request ids not repeating", "why_tests_cant": "needs every order of answers, failures and deadlines", "anchors": ["anthunder/client/aio_client.py:invoke_sync,invoke"]}
{"id": "C72", "title": "A call that timed out leaves nothing behind", "statement": "After invoke_sync has raised TimeoutError its request is eventually forgotten by the client: its coroutine ends and its entry is removed, even if the server never answers.", "quantifier": "all calls and schedules", "why_tests_cant": "needs unbounded time", "anchors": ["anthunder/client/aio_client.py:invoke_sync,invoke"]}
{"id": "C73", "title": "Every timeout that invoke_sync accepts works", "statement": "invoke_sync accepts an int or a float as timeout_ms; with either, a call that the server answers in time returns its value.", "quantifier": "all timeouts, servers and schedules", "why_tests_cant": "all values of a type", "anchors": ["anthunder/client/aio_client.py:invoke_sync", "anthunder/protocol/_request_pkg.py:to_stream"]}
{"id": "C74", "title": "A request that cannot be encoded does not disturb other calls", "statement": "If the request of a call to the asyncio client cannot be encoded (a float as timeout, content that is not bytes, a header beyond 65535 bytes), nothing is written, that call fails, and the other calls on the same connection still get their answers.", "quantifier": "all requests, numbers of calls in progress and schedules", "why_tests_cant": "needs a bad request among concurrent good ones", "anchors": ["anthunder/client/aio_client.py:invoke"]}
{"id": "C75", "title": "Threads sharing a pool never share a connection", "statement": "With any number of threads calling get_conn, put_conn and close of one pool at the same time (each giving back only connections lent to it, or handed to it by another thread), a connection is lent to at most one thread at a time and at most once, is never free while lent, is at most once in the free list, and at most max_free_connections connections are free (if that is positive).", "quantifier": "all numbers of threads, all interleavings of their steps, all failures", "why_tests_cant": "the interleavings of several threads inside the pool's methods are unbounded", "anchors": ["mysockpool/connection_pool.py:get_conn,put_conn,_new_conn,close"]}
{"id": "C76", "title": "Closing a pool that threads are using leaves no idle connection open", "statement": "After close() has returned and all other operations have ended, every connection of the pool is closed or still lent; a get_conn that begins after the pool was closed raises ClosedPoolError, and a put_conn closes its connection. Of several calls of close() at least one ends without an error.", "quantifier": "all numbers of threads and interleavings", "why_tests_cant": "needs a put_conn overlapping close() at one particular instruction", "anchors": ["mysockpool/connection_pool.py:close,put_conn,get_conn"]}
{"id": "C77", "title": "A waiting get_conn ends when the pool is closed", "statement": "A get_conn that waits for a connection (block=True) ends with an exception when the pool is closed; with a timeout it ends at the latest when the time is over; with block=False it never waits.", "quantifier": "all numbers of threads and interleavings", "why_tests_cant": "needs to show that a call never ends", "anchors": ["mysockpool/connection_pool.py:get_conn,close"]}
{"id": "C78", "title": "Pool operations do not deadlock", "statement": "Operations of any number of threads on one pool all end: if no new ones begin, the threads can make only boundedly many steps that change anything, and when none can move any more, every operation has ended, except get_conn calls that wait without a timeout (block=True) for a connection to be given back.", "quantifier": "all numbers of threads, interleavings and failures", "why_tests_cant": "deadlock and livelock freedom over unbounded interleavings", "anchors": ["mysockpool/connection_pool.py:get_conn,put_conn,_new_conn,close"]}
{"id": "C79", "title": "A value returned by the synchronous client comes from the server's method for that very call", "statement": "If invoke_sync of the synchronous client returns a value, then the method asked for was called on the server with the content sent, and that call returned that value. This holds against the threaded and the asyncio server, for any split of the bytes, and also if the connection breaks at any point in either direction.", "quantifier": "all calls, registries, traces, splits and interruptions of both byte streams", "why_tests_cant": "unbounded inputs, chunkings and two server implementations", "anchors": ["anthunder/client/client.py:invoke_sync,_raw_invoke", "anthunder/listener/sock_listener.py:handle", "anthunder/listener/aio_listener.py:_handler_factory"]}
{"id": "C80", "title": "A synchronous call is executed at most once, and as asked", "statement": "One call of invoke_sync or invoke_oneway makes at most one method call on the servers, over all connections it opens while retrying; if it makes one, it is the method asked for, of the interface asked for, with the content given.", "quantifier": "all calls, failures of connections and sends, deliveries, threaded and asyncio servers", "why_tests_cant": "needs partial sends and retries in every combination", "anchors": ["anthunder/client/client.py:_raw_invoke", "anthunder/listener/sock_listener.py:handle", "anthunder/listener/aio_listener.py:_handler_factory"]}
{"id": "C81", "title": "Every kind of frame carries the prescribed codes", "statement": "A request carries protocol 1, the type asked for, command 1, version 1, codec 11, the timeout of the call (-1 if none) and the id, header and content given; a heartbeat carries command 0 and nothing else; a response type 0, command 2, status 0 and the content given; a failure its status and no content; the answer to a heartbeat command 0. All of these except requests can be made for every 32-bit id.", "quantifier": "all ids, types, timeouts, statuses, headers and contents", "why_tests_cant": "all values of every field", "anchors": ["anthunder/protocol/_request_pkg.py:new_request", "anthunder/protocol/_response_pkg.py:response_to", "anthunder/command/heartbeat.py", "anthunder/command/fail_response.py"]}
{"id": "C82", "title": "The recently-used container is thread safe", "statement": "With any number of threads, every operation of the container (and the lookup of a pool in the pool manager) takes effect at one moment between its beginning and its end, as in the sequential container; the values taken out are passed to the dispose function once, by the thread that took them out.", "quantifier": "all operations, numbers of threads and interleavings", "why_tests_cant": "interleavings between any two accesses to the underlying dict are unbounded", "anchors": ["mysockpool/recently_used_container.py:RecentlyUsedContainer", "mysockpool/pool_manager.py:connection_pool_from_pool_key"]}
{"id": "C83", "title": "Threads looking up the same address share one pool", "statement": "Concurrent lookups of the same key return the same pool unless that pool has been evicted or cleared in between, in particular always while there are at most max_pools keys; lookups of different keys never return the same pool.", "quantifier": "all numbers of threads and interleavings", "why_tests_cant": "needs a lookup between the check and the insertion of another", "anchors": ["mysockpool/pool_manager.py:connection_pool_from_pool_key"]}
{"id": "C84", "title": "Container and pool manager operations do not deadlock", "statement": "Operations of any number of threads on the container and the pool manager all end: as long as one has not ended, some thread can go on, and without new operations there are only finitely many steps.", "quantifier": "all numbers of threads and interleavings", "why_tests_cant": "deadlock freedom over unbounded interleavings with a re-entrant lock", "anchors": ["mysockpool/recently_used_container.py:RecentlyUsedContainer", "mysockpool/pool_manager.py:connection_pool_from_pool_key,clear"]}
{"id": "C85", "title": "A call ends the way its method ended", "statement": "In a system of one asyncio client and its asyncio servers in which nothing fails (no connection lost, no flush failing, nobody cancelled, no method too slow), once nothing is left to do, every call of a method the servers have has been executed and has ended: with the value the method returned, or with an exception if the method raised.", "quantifier": "all calls, schedules, splits of the byte streams and method results", "why_tests_cant": "needs all interleavings of calls, flushes, deliveries and method executions up to quiescence", "anchors": ["anthunder/client/aio_client.py:invoke,_send_to,_read_loop", "anthunder/listener/aio_listener.py:_handler_factory,_dispatch"]}
{"id": "C86", "title": "Clients write the requests of their calls and nothing else", "statement": "Everything the clients write on a connection is the frame of one of their calls (or heartbeats): with its id, interface, method, application, uid, trace context and extra headers, content and timeout (-1 if none), of type 1, and of type 2 for invoke_oneway.", "quantifier": "all calls, arguments and schedules of both clients", "why_tests_cant": "all arguments of all entry points, for all interleavings", "anchors": ["anthunder/client/aio_client.py:invoke_sync,invoke_async,invoke_oneway", "anthunder/client/client.py:_raw_invoke,invoke_oneway,invoke_sync", "anthunder/protocol/_sofa_header.py:build_header"]}
{"id": "C87", "title": "Left alone, a client and its servers come to rest", "statement": "Once nobody makes new calls (and the heartbeat timer does not fire), only finitely many things happen, whatever fails: no call is retried for ever, no data is read or answered again and again. From every state the programs and the network can reach a state in which nothing is left to do, and a call under way in a system in which nothing fails can always be completed.", "quantifier": "all states, all endless schedules including lost connections, failed flushes, cancellations and timeouts", "why_tests_cant": "termination for all schedules; tests only see finite ones", "anchors": ["anthunder/client/aio_client.py:_get_connection,_send_to,invoke,_read_loop", "anthunder/listener/aio_listener.py:_handler_factory,_dispatch"]}
{"id": "C88", "title": "The listener executes at most 30 methods at a time, in the order of the requests", "statement": "However many connections an asyncio listener has, at most 30 methods are executed at the same time; a call asked for earlier, on whichever connection, is not left waiting when a later one starts; no worker stays idle while a call waits. All connections see the same registered services, and each is served by itself as if it were the only one.", "quantifier": "all numbers of connections, requests and schedules", "why_tests_cant": "needs more than 30 overlapping calls, for all interleavings", "anchors": ["anthunder/listener/aio_listener.py:AioThreadpoolRequestHandler.__init__,handle_request,register_interface", "anthunder/listener/aio_listener.py:AioListener.run_forever"]}
{"id": "C89", "title": "A method that does not return does not hold up other requests", "statement": "A request for a method the listener offers is executed even if other methods, whose callers have long been told TIMEOUT, never return.", "quantifier": "all requests and schedules", "why_tests_cant": "needs 30 hanging methods and waiting for ever", "anchors": ["anthunder/listener/aio_listener.py:AioThreadpoolRequestHandler.__init__,handle_request", "anthunder/listener/aio_listener.py:_dispatch"]}
{"id": "C90", "title": "The service map stays set-once when threads assign at the same time", "statement": "When several threads assign an address to the same interface in the service map, one of them gets it and the others get KeyError, and the address never changes afterwards (unless the interface is removed); threads that assign other interfaces are not disturbed.", "quantifier": "all contents, numbers of threads and interleavings", "why_tests_cant": "needs a switch between the check and the store of one assignment", "anchors": ["anthunder/helpers/immutable_dict.py:ImmutableValueDict.__setitem__"]}
{"id": "C91", "title": "Threads that start up one mesh client register the application once", "statement": "However many threads call startup() of one MeshClient, with other calls in between, no registration of the application is sent after one was accepted; a call that returns, returns True after an accepted registration; a call that raises, raises what a refused registration gave. The calls do not block each other for ever.", "quantifier": "all numbers of threads, interleavings and answers of the agent", "why_tests_cant": "needs threads inside startup() at the same time, with refused and accepted answers in every order", "anchors": ["anthunder/mesh/mesh_client.py:startup,_post,subscribe,unsubscribe,publish,unpublish"]}
{"id": "C92", "title": "Children of a span made by several threads have different rpc ids", "statement": "The rpc ids of children made from one rpc id by several threads are all different.", "quantifier": "all rpc ids, numbers of threads and interleavings", "why_tests_cant": "needs a switch between reading and writing the counter", "anchors": ["mytracer/_rpc_id.py:_new_child_of,extend_id"]}
{"id": "C93", "title": "publish() publishes all interfaces whatever is registered meanwhile", "statement": "publish() publishes every interface registered when it is called, once and in the order of registration, even if other threads register interfaces meanwhile; if it returns, the agent has accepted all of them.", "quantifier": "all registries, registrations during the call and answers of the agent", "why_tests_cant": "needs a registration between two requests to the agent", "anchors": ["anthunder/listener/base_listener.py:publish", "anthunder/listener/base_listener.py:BaseHandler.register_interface"]}
{"id": "C94", "title": "A call of the synchronous client takes no longer than its timeout", "statement": "invoke_sync(timeout_ms=t) of the synchronous client ends at most t milliseconds and one second after it was called, apart from the time the client's own steps take. It raises TimeoutError then at the earliest, and only if no complete response has come by then; a response that has come completely by then is what the caller gets, however slowly the client runs. (Failing to give the connection back: C104.)", "quantifier": "all arrival times of all bytes, timeouts, speeds of the client, times of connecting and closing", "why_tests_cant": "needs control of the clock and of the arrival time of every byte", "anchors": ["anthunder/client/client.py:invoke_sync,_raw_invoke", "mysockpool/connection.py:send", "mysockpool/_wait.py:wait_for_write"]}
{"id": "C95", "title": "Many clients and many servers do not get each other's answers", "statement": "With any number of asyncio clients and asyncio listeners, whose request ids may coincide and whose connections other programs may join with arbitrary bytes: a value that invoke_sync returns was returned by the method called for that very call, with its content, by the listener at the address of the call. For one call a method is started at most once more than flushes of the request failed, and at most three times. No connection serves two clients, and a listener runs at most 30 methods at a time.", "quantifier": "all numbers of clients and listeners, all interleavings, deliveries and losses of connections", "why_tests_cant": "needs several processes, coinciding request ids and control of every delivery", "anchors": ["anthunder/client/aio_client.py:invoke_async,_get_connection,_recv_response", "anthunder/listener/aio_listener.py:AioThread,_handler_connection,_dispatch"]}
{"id": "C96", "title": "Synchronous and asyncio clients and both kinds of listener together", "statement": "Any number of asyncio clients, synchronous calls (from any number of threads and processes), asyncio listeners and threaded listeners run at the same time, and request ids of different calls coincide. A value returned by a synchronous call is what the method returned that was called for that very call - same service, method and argument - by the listener at the call's address, on a connection of that call. Over all connections a synchronous call opens, whether one-way or not and however often it retries, at most one method is executed, and it is the one asked for; it takes at most three connections. No connection belongs to two synchronous calls, or to a synchronous call and an asyncio client. The guarantees of asyncio clients (the value of that very call's method; executions bounded by failed flushes plus one, and by three) and the bound of 30 methods per asyncio listener hold beside all of it.", "quantifier": "every number of clients, calls and listeners, every interleaving of their steps, every fragmentation, every failure of a connection or a send, every choice of request ids that does not repeat within one asyncio client", "why_tests_cant": "a test runs one client against one server; the mixtures and interleavings are unbounded", "anchors": ["anthunder/client/client.py:_raw_invoke,_recv_response,_get_pool", "anthunder/client/aio_client.py:invoke_async,_get_connection,_recv_response", "anthunder/listener/aio_listener.py:handler_connection,_dispatch", "anthunder/listener/sock_listener.py:SockServerHandler"]}
{"id": "C97", "title": "Starting and stopping a listener", "statement": "While run_forever of a listener runs and shutdown is not called, every connection that clients establish is served. After shutdown() has returned, run_forever has returned, no connection is accepted and no request is executed any more, and clients that connect are refused. shutdown() returns soon after it was called, whenever it is called.", "quantifier": "every interleaving of run_forever, any number of shutdown calls, connections and requests", "why_tests_cant": "needs control over which thread goes on between shutdown, the accept loop and start-up", "anchors": ["anthunder/listener/sock_listener.py:SockListener.run_forever,SockListener.shutdown", "anthunder/listener/aio_listener.py:AioListener.run_forever,AioListener.shutdown", "anthunder/listener/base_listener.py:run_threading"]}
{"id": "C98", "title": "The limit of a connection pool holds when threads share it", "statement": "With any number of threads calling get_conn, put_conn and close of one pool at the same time, at most max_connections connections of the pool are open and free or lent, and num_connections is never less than their number.", "quantifier": "every number of threads, every interleaving at the level of single attribute accesses, every configuration", "why_tests_cant": "the window between the load and the store of the counter is a few instructions wide", "anchors": ["mysockpool/connection_pool.py:_new_conn,get_conn,put_conn"]}
{"id": "C99", "title": "An asyncio client with threaded listeners", "statement": "An asyncio client calls services of threaded listeners, any number of calls at a time. A value that invoke_sync or invoke_async returns is what the method returned that was called for that very call, with its service, method and content, at its address. Threads execute nothing but what was asked for at their address. For one call a method is executed at most once more than flushes of its request failed, and at most three times. Calls that share a connection each get their answer.", "quantifier": "every number of calls, connections and listeners, every interleaving, every fragmentation, every loss of a connection", "why_tests_cant": "the two kinds of program are tested against themselves only; needs control of every delivery", "anchors": ["anthunder/client/aio_client.py:invoke_async,_get_connection,_recv_response", "anthunder/listener/sock_listener.py:SockServerHandler"]}
{"id": "C100", "title": "The contexts of processes that call each other form one trace", "statement": "Processes make spans and call each other, passing span contexts. Every context was made in exactly one way: afresh, derived from one context of its process, or extracted from one request. A context made out of another through any number of derivations and calls, in any processes, holds the same trace id and all other items of the first, with the same values, and when only child spans are made its rpc id is the first's followed by dotted parts. Two contexts made out of the same context have the same rpc id only if one is what the callee of a chain of calls received of the other.", "quantifier": "every number of processes, every sequence of spans and calls, every content of contexts and headers", "why_tests_cant": "needs several processes with their own tracers and a property of all their contexts together", "anchors": ["mytracer/tracer.py:start_span,extract", "mytracer/span_context.py:SpanContext.__init__", "mytracer/_rpc_id.py:new_by_reference_type", "anthunder/protocol/_sofa_header.py:build_header"]}
{"id": "C101", "title": "Exact reads and complete writes on one connection", "statement": "On one connection, calls of recvexactly made one after another return consecutive pieces of what the other side wrote, each of exactly the size asked for, however the bytes come in; a call that raises loses fewer bytes than it asked for. Every call ends. sendall writes the data in order; when it returns all of it is written, and it returns normally on a connection that does not break.", "quantifier": "every sequence of calls, sizes and errors, every fragmentation of the stream, every size of the buffers of the system, every moment of closing", "why_tests_cant": "fragmentation, the filling of buffers and the moment of closing are outside the control of a test", "anchors": ["mysockpool/connection.py:recvexactly,sendall", "mysockpool/_wait.py:wait_for_read"]}
{"id": "C102", "title": "All kinds of clients and listeners at once", "statement": "Any number of asyncio clients, synchronous calls, asyncio listeners and threaded listeners run at the same time, each asyncio client calling listeners of both kinds, beside programs that send anything. A value that a call returns was returned by the method called for that call, on a connection of that client, at the address of the call. What is executed on a connection of a client is what that client asked for there. The method of one call is executed at most three times, and at most once more than its flushes failed. No connection is shared by two clients. An asyncio listener executes at most 30 methods at a time.", "quantifier": "every number of clients, calls and listeners, every interleaving, every fragmentation and loss of connections, every equality of request ids between clients", "why_tests_cant": "there are unboundedly many programs and interleavings, and a test has one of each", "anchors": ["anthunder/client/aio_client.py:invoke_async,_get_connection,_recv_response", "anthunder/client/client.py:_raw_invoke,_recv_response,_get_pool", "anthunder/listener/aio_listener.py:handler_connection,_dispatch", "anthunder/listener/sock_listener.py:SockServerHandler"]}
{"id": "C103", "title": "A call of the synchronous client opens at most one connection", "statement": "invoke_sync and invoke_oneway of the synchronous client open no more than one connection per attempt to send, and none for giving the connection back.", "quantifier": "every history of calls, of any threads, every pattern of sockets that can and cannot be created, every attempt in which the request gets out", "why_tests_cant": "connections are opened inside the pools and closed by the garbage collector, so a test that looks at results sees none of them; no test counts them", "anchors": ["anthunder/client/client.py:_raw_invoke,_get_pool,invoke_sync,invoke_oneway", "mysockpool/connection_pool.py:get_conn,put_conn,_new_conn"]}
{"id": "C104", "title": "An answer that has been received is returned", "statement": "When the complete response to a call of the synchronous client, with status SUCCESS and the id of the request, has been read, invoke_sync returns its content; when the whole request of a one-way call has been sent, invoke_oneway returns normally.", "quantifier": "every response, request, way in which the bytes become readable, every pattern of sockets that can and cannot be created", "why_tests_cant": "needs the process to run out of sockets between sending the request and giving the connection back", "anchors": ["anthunder/client/client.py:invoke_sync,invoke_oneway,_get_pool", "mysockpool/connection_pool.py:_new_conn"]}
{"id": "C105", "title": "Whoever borrows a connection from a pool reads only their own answers", "statement": "The bytes that are read from a connection between the get_conn that hands it out and the put_conn that gives it back were sent by the peer in answer to the requests of that borrower, not of an earlier one.", "quantifier": "every configuration, every history of gets, gives, reads, closes, and of answers sent and arriving at any time, also late, in any pieces", "why_tests_cant": "it takes an answer that is late by a particular time: after the connection was given back and handed out again; tests have one borrower", "anchors": ["mysockpool/connection_pool.py:get_conn,put_conn", "mysockpool/pool_manager.py:connection_scope", "mysockpool/utils.py:is_connection_dropped"]}
{"id": "C106", "title": "What a read-only mapping holds stays there whatever is called on it", "statement": "The package's three read-only mappings (the service map, the baggage of a span context, the header of a package) keep every entry they hold, with its value, whatever sequence of mapping methods is called on them: assignment, del, update, setdefault, pop, popitem, clear.", "quantifier": "all three classes, all key and value types, all contents, all sequences of method calls, also failing ones", "why_tests_cant": "tests try item assignment only; that the inherited methods do not go through it is a fact about dict, not about any input", "anchors": ["anthunder/helpers/immutable_dict.py:25-29", "mytracer/span_context.py:28-30", "anthunder/protocol/_sofa_header.py:90-96"]}
{"id": "C107", "title": "Threads sharing a pool manager never share a connection, and pools it dropped are closed", "statement": "When several threads use one pool manager (lookups, clear, get_conn, put_conn, in any interleaving), no connection is lent to two threads at once and no lent connection is free. If the program closes pools only through the manager, then whenever all lookups and clears have returned exactly the pools the manager still holds are open, at most max_pools of them, and no call of the manager has raised anything but what the constructor of a pool raised.", "quantifier": "all interleavings of any number of threads, all addresses, pool settings and values of max_pools, all failures to connect", "why_tests_cant": "depends on a thread being interrupted between any two accesses, inside the lookup, the eviction and the closing of the evicted pool", "anchors": ["mysockpool/pool_manager.py:45-112", "mysockpool/recently_used_container.py:30-105", "mysockpool/connection_pool.py:53-178"]}
{"id": "C108", "title": "A thread can borrow from the pool it was given", "statement": "A thread that has got a pool from a shared manager can borrow from it: get_conn does not fail with ClosedPoolError because other threads ask the manager for other addresses.", "quantifier": "all interleavings, numbers of threads, addresses and settings", "why_tests_cant": "needs another thread's lookup to fall between this thread's lookup and its get_conn", "anchors": ["mysockpool/pool_manager.py:78-112", "mysockpool/connection_pool.py:94-130"]}
{"id": "C109", "title": "Calls of a shared pool manager end", "statement": "Every lookup and clear of a pool manager shared by threads ends, and so does every operation on its pools except a get_conn that waits without a timeout for a connection to be given back.", "quantifier": "all interleavings, numbers of threads, addresses and settings", "why_tests_cant": "a deadlock between the lock of the manager, the locks of the pools and their queues shows only in particular interleavings or settings; a test that hits it hangs", "anchors": ["mysockpool/pool_manager.py:45-98", "mysockpool/recently_used_container.py:30-105", "mysockpool/connection_pool.py:61-67", "mysockpool/connection_pool.py:80-178"]}
{"id": "C110", "title": "A threaded listener that was shut down can be started again", "statement": "After the calls of shutdown of the threaded listener have returned, a new call of run_forever serves the clients that connect to it, and those that connected in between.", "quantifier": "every history of one run_forever, calls of shutdown, connecting clients, and of steps of the threads", "why_tests_cant": "whether the request to stop is still pending depends on how many shutdowns there were and on which of its steps each thread has done", "anchors": ["anthunder/listener/sock_listener.py:SockListener.run_forever,shutdown"]}
{"id": "C111", "title": "Rpc ids compare equal exactly when they are written alike", "statement": "Two rpc ids are equal (==) if and only if their texts (str) are equal.", "quantifier": "all rpc ids, of all spans and made from all parts", "why_tests_cant": "equality compares the list of parts and the text joins it, so whether they agree depends on the parts; no finite list of ids shows it", "anchors": ["mytracer/_rpc_id.py:RpcId.__eq__,__str__"]}
{"id": "C112", "title": "A new span belongs to the trace of every context named when it is started", "statement": "start_span(name, child_of=..., references=...) makes a span with the trace id and the baggage of the contexts named in the call; without any, it begins a new trace.", "quantifier": "every state of the tracer and all arguments child_of and references", "why_tests_cant": "tests pass one parent or one reference of the expected kind", "anchors": ["mytracer/tracer.py:84-91", "mytracer/tracer.py:start_span"]}
{"id": "C113", "title": "A span has the start time it was given and finishes when it is finished, not before", "statement": "The start time of a span is the one given to start_span, or else when the span was made or entered as a context manager; its finish time is when it was last finished or left; with a clock that does not go back it is not before the start time.", "quantifier": "all clock readings and all sequences of set_start_time, finish, entering and leaving", "why_tests_cant": "the times depend on the order of the operations and on the clock; nothing in the tests reads them", "anchors": ["mytracer/span.py:57-68", "mytracer/tracer.py:101-102"]}
{"id": "C114", "title": "Methods of an asyncio listener may call each other", "statement": "A method served by the asyncio listener may call another method of the same listener and wait for the answer: both calls end.", "quantifier": "all histories of the listener, all numbers of connections and calls, and all choices of which method waits for which call", "why_tests_cant": "the deadlock needs 30 methods waiting at once; tests make a few calls, and none from inside a method", "anchors": ["anthunder/listener/aio_listener.py:46-72", "anthunder/listener/aio_listener.py:AioThreadpoolRequestHandler.handle_request"]}
{"id": "C115", "title": "The asyncio listener closes every connection that has ended", "statement": "Once a client has closed its side of a connection of the asyncio listener, or the connection has failed, the listener reads what has arrived, closes its own side after at most as many steps as bytes arrived (plus 3), and then never writes on it again; this holds in whatever way requests are cut off, refused or undecodable, unless the write of an error answer itself fails.", "quantifier": "all byte streams, all cuts of it into arrivals, all interleavings with the calls being answered, all points at which the stream ends", "why_tests_cant": "a connection left open shows only as a leaked descriptor after many clients; tests do not look at it, nor cut streams at every byte", "anchors": ["anthunder/listener/aio_listener.py:180-271", "anthunder/listener/aio_listener.py:AioListener._handler_connection"]}
{"id": "C116", "title": "The asyncio client closes the connections it gives up", "statement": "A connection that the asyncio client has stopped using (no call writes on it, no later call will find it) is closed by the client.", "quantifier": "all histories: any number of calls, connections and servers, all interleavings, all failures of writes and dials", "why_tests_cant": "a leaked connection has no effect on any call; it shows as a growing number of open sockets after failures that tests do not produce", "anchors": ["anthunder/client/aio_client.py:145-160", "anthunder/client/aio_client.py:186-212", "anthunder/client/aio_client.py:220-260"]}
{"id": "C117", "title": "A synchronous call to a healthy listener is answered", "statement": "A synchronous call with a numeric timeout whose request reaches a listener that has the method is answered: once nothing is on its way any more, the call has returned the value its method returned (at an asyncio listener: the value of the reply, or ServerError if the reply reports an error). Whatever other calls, clients and listeners do at the same time, the call can always be brought to that end.", "quantifier": "all deployments: any number of synchronous and asyncio clients, threaded and asyncio listeners; all interleavings; all ways to cut the bytes on the way; all values", "why_tests_cant": "a liveness property: tests make one call at a time on an idle machine", "anchors": ["anthunder/client/client.py:55-141", "anthunder/listener/sock_listener.py:46-60", "anthunder/listener/sock_listener.py:85-143", "anthunder/listener/aio_listener.py:123-262"]}
{"id": "C118", "title": "A callback of invoke_async may use the client", "statement": "A callback given to invoke_async may itself call the client, with any of its entry points, and gets what any other caller would get; other calls go on meanwhile.", "quantifier": "all callbacks, histories, servers and schedules; any number of calls", "why_tests_cant": "a deadlock between a thread and itself, visible only when the callback blocks; the tests' callbacks only compare values", "anchors": ["anthunder/client/aio_client.py:59-72", "anthunder/client/aio_client.py:79-118"]}
{"id": "C119", "title": "A method that raises harms no other request, whatever it raises", "statement": "Whatever a method of a service of the asyncio listener raises, SystemExit and KeyboardInterrupt included, its own request is answered with an error and all other requests are served as before.", "quantifier": "all histories of connections, requests, schedules of coroutines and worker threads, and all things that methods raise", "why_tests_cant": "needs a method that leaves with sys.exit or is interrupted while another client is being served; no test's method raises", "anchors": ["anthunder/listener/aio_listener.py:59-70", "anthunder/listener/aio_listener.py:108-114", "anthunder/listener/aio_listener.py:150-165"]}
{"id": "C120", "title": "A process has one client of each kind", "statement": "However often and by whichever threads Client, AioClient or MeshClient is called, each of these classes gives the same object every time, as their declaration as singletons says.", "quantifier": "all histories of calls by any number of threads, with constructors that return or raise", "why_tests_cant": "the tests make one client each, and a second one works as well: what is wrong is the number of connections and registrations", "anchors": ["anthunder/helpers/singleton.py:26-32", "anthunder/client/client.py:44-46", "anthunder/client/aio_client.py:47-49", "anthunder/mesh/mesh_client.py:70-72"]}
{"id": "C121", "title": "Left alone, any number of clients and listeners come to rest, with every call of an undisturbed client decided", "statement": "When any number of asyncio clients and listeners (each listener with its 30 workers) are left alone, they do not go on for ever, even while connections break and calls are cancelled; they can always reach a state in which nobody has anything left to do. In such a state, for every two-way call of a client that met no failure, made to a listener that has the method, the method has been called by that listener and has ended, and the call has ended accordingly: a value is returned (or, if it came before the request was flushed, lost with KeyError), an exception gives KeyError, and only a method with nothing to send back leaves its call waiting. What failed for other clients makes no difference.", "quantifier": "all networks of clients and listeners, all histories, all schedules", "why_tests_cant": "the tests have one client and one server and always make a new call; they cannot show that nothing goes on for ever, nor what holds whatever others do", "anchors": ["anthunder/client/aio_client.py:122-262", "anthunder/listener/aio_listener.py:46-185"]}
{"id": "C122", "title": "A callback that raises harms no other call of the asyncio client, whatever it raises", "statement": "Whatever a callback given to invoke_async raises, SystemExit and KeyboardInterrupt included, the other calls of the client, earlier and later ones, end as they would have done.", "quantifier": "all histories of calls, answers and schedules, and all things that callbacks raise", "why_tests_cant": "needs a callback that leaves with sys.exit while other calls are under way; no test's callback raises", "anchors": ["anthunder/client/aio_client.py:59-64", "anthunder/client/aio_client.py:92-118"]}
{"id": "C123", "title": "On the asyncio listener a method that raises an Exception is answered with an error at once, whichever Exception it is", "statement": "When a method called by the asyncio listener raises an Exception, a response with an error status is written for its request as soon as the coroutine that awaits it runs, whichever class of Exception was raised and whether or not the request came with a timeout.", "quantifier": "all histories of connections, requests and schedules, and all exceptions", "why_tests_cant": "needs a method that raises StopIteration (a bare next() on an exhausted iterator does); no test's method raises it", "anchors": ["anthunder/listener/aio_listener.py:59-70", "anthunder/listener/aio_listener.py:154-165"]}
{"id": "C124", "title": "Left alone, a deployment of both kinds of clients and listeners comes to rest, and its calls have ended as their methods did", "statement": "When any number of synchronous callers, asyncio clients, asyncio listeners and threads of threaded listeners are left alone, they do not go on for ever, and they can always reach a state in which nobody has anything left to do. In such a state every call that met no failure and whose listener has the method has ended: a synchronous call to a threaded listener has returned the value of its method; one to an asyncio listener has returned the value, or raised ServerError if the method raised; the calls of asyncio clients have ended likewise. What failed for others makes no difference.", "quantifier": "all deployments, all histories, all schedules", "why_tests_cant": "the tests have one client and one server; they cannot show that nothing goes on for ever, nor what holds whatever the other programs do", "anchors": ["anthunder/client/client.py:55-141", "anthunder/listener/sock_listener.py:46-140", "anthunder/listener/aio_listener.py:46-185", "anthunder/client/aio_client.py:122-262"]}
{"id": "C125", "title": "publish() and unpublish() of a listener announce and withdraw its own interfaces, and no others", "statement": "When publish() of a listener returns, the mesh agent knows every interface registered on that listener, on its port; when unpublish() returns it knows none of them. Neither changes what the agent knows about the interfaces of other listeners of the process. Nothing else changes what the agent knows.", "quantifier": "all histories of making listeners, registering interfaces, publishing and unpublishing, and all answers of the agent", "why_tests_cant": "needs several listeners in one process, or an agent that was away when the listener was made; the tests run without an agent", "anchors": ["anthunder/listener/base_listener.py:45-103", "anthunder/mesh/mesh_client.py:84-117"]}
{"id": "C126", "title": "A caller of a slow method is told so by the server before its own deadline", "statement": "A request with a timeout that wants an answer is answered by the asyncio listener when its timeout is over, however long its method takes: within the timeout and four times the lag of the event loop, if the connection stays and the method has not returned something that cannot be sent. It is told TIMEOUT no earlier than its timeout after it came, unless its method has raised TimeoutError or CancelledError. So a synchronous caller, who waits a second longer than the timeout, gets the server's verdict (the value or ServerError) and not its own TimeoutError whenever the two ways through the network and the lag fit into that second.", "quantifier": "all requests, schedules, methods, timeouts and times of arrival; all lags of the event loop and of the network", "why_tests_cant": "depends on the times of the loop, the workers and the network; the tests have one slow method on an idle machine", "anchors": ["anthunder/listener/aio_listener.py:123-178", "anthunder/client/client.py:99-141"]}
{"id": "C127", "title": "Threads sharing a pool do not use up its capacity", "statement": "When the threads that share a pool have finished their get_conn and put_conn calls, and nobody has closed it, the pool counts no more connections than are open (and one for each socket that could not be created), so a get_conn that finds no free connection makes one whenever fewer than max_connections are open.", "quantifier": "all configurations, numbers of threads, interleavings of their steps and histories of calls", "why_tests_cant": "needs one thread between the load and the store of += while another stores its -=; the tests use a pool from one thread", "anchors": ["mysockpool/connection_pool.py:80-178"]}
{"id": "C128", "title": "What the error of a synchronous call says", "statement": "A synchronous or oneway call to listeners of this library that raises does so for one of five reasons, which its error tells: nothing came in time (TimeoutError); its socket failed (that error); it was refused before it had any connection (AssertionError for a timeout that is no number, the error of building its request, or NameError when no connection could be had), and then no listener ever heard of it; its connection could not be given back (that error), for a oneway call or after a reply; or the listener's reply has an error status (ServerError). It never fails to decode a reply and never takes a reply for another call's. A threaded listener reports an error only to a call that names no interface or no method, so any other call to one that meets no timeout and no socket failure fails only before it is sent.", "quantifier": "all deployments of any numbers of clients and listeners, all interleavings, calls and failures of sockets", "why_tests_cant": "each error needs a particular interleaving of the client, the network and the listener, and the claim is that there is no sixth cause", "anchors": ["anthunder/client/client.py:56-141", "anthunder/listener/sock_listener.py:45-156", "anthunder/listener/aio_listener.py:59-271"]}
{"id": "C129", "title": "What the outcome of an asyncio call says", "statement": "A call of the asyncio client ends with the reply that was read with its id and status SUCCESS; or with nothing, only if it is oneway or its request could not be sent (a dial failed, a flush failed, or it cannot be encoded); or with an error, only if that is the error of finding its address, or it was cancelled, or a reply with its id but without success was read. Among listeners of this library, that reply was written by a listener the client is connected to.", "quantifier": "all schedules, numbers of calls, replies, failures; all deployments with any numbers of clients and listeners of both kinds", "why_tests_cant": "the claim is that no interleaving of sending, replies, failures and cancellations ends a call for any other reason", "anchors": ["anthunder/client/aio_client.py:74-260", "anthunder/listener/aio_listener.py:59-271", "anthunder/listener/sock_listener.py:50-156"]}
{"id": "C130", "title": "Every method is called in the trace context of its caller", "statement": "Among any numbers of clients and listeners of both kinds, every method call made by a listener on a connection of a client is in the trace context of the call of that client it is for: the context has exactly the baggage items of the caller's, among them the trace id and the rpc id.", "quantifier": "all deployments, schedules, numbers of clients, listeners, connections and calls, all contents, tracers and other programs", "why_tests_cant": "mixing up contexts needs concurrent requests on several connections sharing a listener; tests use one request at a time", "anchors": ["mytracer/tracer.py:106-120", "anthunder/listener/aio_listener.py:117-176", "anthunder/listener/sock_listener.py:105-133", "anthunder/client/client.py:55-92", "anthunder/client/aio_client.py:74-110", "anthunder/protocol/_sofa_header.py:116-140"]}
{"id": "C131", "title": "Only methods that the service class defines can be called", "statement": "A listener calls a method for a request only if the class registered under the requested service name defines a method of the requested name; any other name is answered with NO_PROCESSOR.", "quantifier": "all service classes, requests, connections and schedules, both listeners", "why_tests_cant": "it takes requests for names that no interface definition has, such as __init__ or ctx; tests call published methods only", "anchors": ["anthunder/listener/aio_listener.py:59-76", "anthunder/listener/sock_listener.py:46-60", "anthunder/listener/base_listener.py:29-38"]}
{"id": "C132", "title": "Every request is served by an object of its own, made as registered", "statement": "For every request the listener makes one object of the class registered for the interface, calling the class with the trace context of the request followed by the positional and keyword arguments given to register_interface; any arguments that the class takes can be given. No request sees what the method called for another stored in its object.", "quantifier": "all classes, arguments, registrations and requests, all interleavings of handlers, methods and threads that register, both listeners", "why_tests_cant": "an object reused for two requests shows only when their methods overlap; a registration that changes between lookup and construction needs a particular moment", "anchors": ["anthunder/listener/aio_listener.py:59-94", "anthunder/listener/sock_listener.py:46-77", "anthunder/listener/base_listener.py:29-38"]}
{"id": "C133", "title": "Connections of synchronous calls do not pile up", "statement": "A call of the synchronous client that has ended, by a value or by an exception, has left none of the connections it opened open; while it waits for its answer only the connection it waits on is open; and that connection is not closed because other calls end.", "quantifier": "any number of calls in any number of threads, all interleavings, all outcomes of every lookup, connection, send and response", "why_tests_cant": "whether a socket stays open depends on what still refers to it, such as the traceback of an exception the application keeps; tests neither keep exceptions nor count sockets", "anchors": ["anthunder/client/client.py:55-141", "mysockpool/pool_manager.py:45-98", "mysockpool/connection_pool.py:55-162", "mysockpool/connection.py:81-82"]}
{"id": "C134", "title": "Everything together comes to rest", "statement": "Asyncio clients, synchronous clients and listeners of both kinds, left alone, do only finitely much, in whatever order things happen and whatever fails; by themselves they reach a state in which nobody has anything left to do, and then every call of a synchronous client that nothing disturbed has ended as its method did.", "quantifier": "any number of clients of both kinds, of listeners of both kinds and of connections, from every reachable state, all schedules", "why_tests_cant": "that nothing goes on for ever, in any mixture of programs, is a statement about all infinite schedules", "anchors": ["anthunder/client/aio_client.py:60-256", "anthunder/client/client.py:55-177", "anthunder/listener/aio_listener.py:41-222", "anthunder/listener/sock_listener.py:35-90", "anthunder/listener/base_listener.py:60-118"]}
{"id": "C135", "title": "What becomes of calls of the asyncio client to threaded listeners", "statement": "When nobody has anything left to do, every call that an asyncio client has sent to a threaded listener, that was not cancelled and whose connection was not lost, has ended with what the method returned.", "quantifier": "any number of clients of both kinds, of listeners of both kinds and of connections; all calls, all schedules", "why_tests_cant": "that the first call on a connection is answered and no later one ever is needs all orders of calls and all histories of the connection", "anchors": ["anthunder/client/aio_client.py:145-260", "anthunder/listener/sock_listener.py:35-90"]}
{"id": "C136", "title": "What becomes of calls of the asyncio client to asyncio listeners", "statement": "When nobody has anything left to do, every call that an asyncio client has sent to an asyncio listener, that was not cancelled and whose connection was not lost, has ended as its method did, whatever other programs of all kinds did meanwhile.", "quantifier": "any number of clients of both kinds, of listeners of both kinds and of connections; all calls, all results, all schedules", "why_tests_cant": "which of many interleaved answers on a connection ends which call, for every result a method can have, needs all histories", "anchors": ["anthunder/client/aio_client.py:145-260", "anthunder/listener/aio_listener.py:60-230"]}
{"id": "C137", "title": "A connection of a pool is open exactly as long as somebody can use it", "statement": "A connection of a pool that is lent, or idle in a pool that its user has, is not closed unless the pool or a borrower closes it; and a connection that is neither is closed at once, also when its borrower just drops it, when the pool is dropped, and when get_conn fails.", "quantifier": "all parameters of the pool, all histories of borrowing, returning, closing and dropping connections, pools and exceptions, all failures to make sockets, all times at which the garbage collector runs", "why_tests_cant": "sockets that nobody can reach are not visible to a test, and the failure needs a pool that has reached its limit while connections are idle", "anchors": ["mysockpool/connection_pool.py:80-178", "mysockpool/connection.py:81-82", "mysockpool/exceptions.py:28-44"]}
{"id": "C138", "title": "Making a connection pool", "statement": "The constructor of a pool with a valid key returns a pool with as many idle connections as were asked for, or raises; it always ends, and when it has raised, no connection it made is left open.", "quantifier": "all numbers of initial, free and total connections, negative ones too; all failures to make sockets", "why_tests_cant": "combinations of parameters are unbounded, and sockets that nobody can reach are not visible to a test", "anchors": ["mysockpool/connection_pool.py:45-92", "mysockpool/connection.py:31-45", "mysockpool/connection.py:81-82", "mysockpool/exceptions.py:28-44"]}
{"id": "C139", "title": "Threads that share a pool get what one thread would get", "statement": "Whatever several threads do to one connection pool, the results of their calls and the state of the pool afterwards are those of one thread that makes the same calls in some order.", "quantifier": "all settings, numbers of threads, interleavings, sockets that cannot be made and connections that are dropped", "why_tests_cant": "a test runs a few interleavings; the claim compares all of them with all histories of one thread", "anchors": ["mysockpool/connection_pool.py:80-178"]}
{"id": "C140", "title": "With statements over pools and managers close what they cover and keep the outcome of their body", "statement": "When a with statement over a pool manager ends, every pool that the manager made is closed; when one over a pool ends, that pool is closed and is not given out again. Either statement ends as its body did: normally, or with the body's exception.", "quantifier": "all settings, keys, programs of one thread made of manager and pool operations, own exceptions and nested with statements", "why_tests_cant": "a test nests a few statements; the claim covers every program and every pool the manager still has at the end", "anchors": ["mysockpool/pool_manager.py:50-56", "mysockpool/connection_pool.py:72-78", "mysockpool/recently_used_container.py:87-95"]}
{"id": "C141", "title": "The service map says what the mesh agent is subscribed to", "statement": "When subscribe() returns, the mesh agent is subscribed to the interfaces named; when unsubscribe() returns, it is not. When all such calls of a process have returned, whichever threads made them, SERVICE_MAP has an interface that the application did not route itself exactly if the agent is subscribed to it.", "quantifier": "all answers of the agent, interfaces, numbers of threads and interleavings of posts and accesses to the map", "why_tests_cant": "tests subscribe in one thread to an agent that says yes; the disagreement needs two threads and a particular order", "anchors": ["anthunder/client/base.py:56-87", "anthunder/helpers/immutable_dict.py:25-29", "anthunder/mesh/mesh_client.py:91-95"]}
{"id": "C142", "title": "A new asyncio client is complete and starts its heartbeat", "statement": "A client that AioClient() returns has everything its calls need and a running event loop. If the mesh accepted the application, the client sends its first heartbeat 30 seconds after it asked for it or later, whatever the order in which the constructor and the event loop run; otherwise it sends none.", "quantifier": "all interleavings of the constructor and the event loop thread, all delays, mesh and thread failures", "why_tests_cant": "the order of two threads and delays of half a minute cannot be chosen in a test", "anchors": ["anthunder/client/aio_client.py:51-72", "anthunder/client/aio_client.py:121-136"]}
{"id": "C143", "title": "A mesh agent that does not answer does not hold up the application", "statement": "Every call of a mesh client (startup, subscribe, unsubscribe, publish, unpublish) ends, also when the agent takes a connection and never answers; and a call that waits for the agent does not keep the calls of other threads from ending.", "quantifier": "all numbers of threads, all interleavings, all answers and all missing answers", "why_tests_cant": "an agent that never answers makes the test wait for ever, and the order of threads cannot be chosen", "anchors": ["anthunder/mesh/mesh_client.py:80-106", "anthunder/mesh/mesh_client.py:108-117"]}
{"id": "C144", "title": "Trace ids and rpc ids are values", "statement": "Trace ids and rpc ids can be compared with any object and kept in any collection: two ids are equal exactly if they are of the same class and have the same value, != is the opposite of ==, no comparison raises, and an id can be looked for in a list, used as a key of a dictionary and put into a set.", "quantifier": "all ids, all other objects, all classes derived from the two", "why_tests_cant": "the kinds of objects, derived classes and orders of operands are too many to list", "anchors": ["mytracer/_trace_id.py:33-54", "mytracer/_rpc_id.py:26-48", "mytracer/_rpc_id.py:79-84"]}
{"id": "C145", "title": "A process registers its application with the mesh once", "statement": "However many clients and listeners a process makes for an application, the mesh agent is asked once to register it, with a document that holds exactly the non-empty values given to the constructor; all of them work with the mesh if the registration was accepted, and none posts anything otherwise.", "quantifier": "all orders of constructors and mesh operations, all arguments, all answers of the agent", "why_tests_cant": "the numbers of objects, the arguments left out and the answers are too many to list", "anchors": ["anthunder/client/base.py:35-47", "anthunder/listener/base_listener.py:60-78", "anthunder/mesh/mesh_client.py:46-89"]}
{"id": "C146", "title": "A connection of a pool manager is open exactly as long as somebody can use it", "statement": "A connection is open as long as somebody has borrowed it, or it is idle in a pool that a user has or that a manager keeps which a user has, and nobody closed it; once nobody can use it any more (the manager, the pool or the connection was dropped, evicted or cleared) it is closed at once.", "quantifier": "all histories of lookups, evictions, clear, borrowing, giving back, closing and dropping of managers, pools, connections and exceptions", "why_tests_cant": "the orders in which objects can be let go of are too many, and open sockets that nobody has cannot be seen by a test through the API", "anchors": ["mysockpool/pool_manager.py:45-98", "mysockpool/recently_used_container.py:51-95", "mysockpool/connection_pool.py:45-178", "mysockpool/connection.py:81-82"]}
{"id": "C147", "title": "The recently-used container is a mapping: all methods of a mapping work on it, and what it holds or returns is usable", "statement": "get, in, len, keys, items, values, iteration, ==, pop, popitem, setdefault and update do on the recently-used container what they do on a dict, as long as its size is not exceeded, and dispose_func is called for no value that the container still holds or that the call returns.", "quantifier": "all types of keys and values, all sizes, all contents and all sequences of calls", "why_tests_cant": "the methods are inherited and have no code in the project, so a test per method of the class does not reach them, and their effects depend on the contents", "anchors": ["mysockpool/recently_used_container.py:28-99"]}
{"id": "C148", "title": "An exception says what happened, and so does a copy of it", "statement": "The text of every exception of the package is the message it was made with, after the kind of error or the pool it is about; different statuses of responses give different texts; an exception of the pool package has the pool as attribute pool; a copy of an exception, as pickle makes one for another process, has the same text and class.", "quantifier": "all classes of exceptions, all messages, pools and statuses, all numbers of copies", "why_tests_cant": "tests check that an exception is raised, not what it says in every case or after it went to another process", "anchors": ["anthunder/exceptions.py:25-41", "anthunder/protocol/exceptions.py:27-40", "mysockpool/exceptions.py:25-53", "mysockpool/connection_pool.py:69-70"]}
{"id": "C149", "title": "Every value leaving the recently-used container is disposed exactly once, also if dispose_func raises", "statement": "Whichever calls of dispose_func raise, the container holds what it would hold otherwise, the values ever stored are exactly those held and those passed to dispose_func, counted with multiplicity, and the caller of the operation gets the exception.", "quantifier": "all types of keys and values, all sizes, all sequences of operations, all failures of dispose_func", "why_tests_cant": "which call fails, at which content, is unbounded", "anchors": ["mysockpool/recently_used_container.py:51-95"]}
{"id": "C150", "title": "get, setdefault and pop of the recently-used container are thread safe", "statement": "When threads call get, setdefault and pop with a default of one recently-used container at the same time, each call takes effect at one moment: threads that call setdefault with the same key get the same value, which is in use, and pop with a default raises nothing.", "quantifier": "all numbers of threads, all calls, contents and sizes, all interleavings", "why_tests_cant": "the wrong outcomes need a switch of threads between two steps inside one call, which a test cannot force", "anchors": ["mysockpool/recently_used_container.py:28-99"]}
