{"id": "C01", "title": "Linked queues behave as sequences", "statement": "After any history of initialising queues, inserting unlinked elements at the head or at the tail and removing elements, walking a queue forwards visits exactly the elements the abstract sequence contains, in order, and walking it backwards visits the reverse; no operation on one queue changes what is visited in another; the emptiness test and the head access agree with the sequence; nothing dereferences a NULL link.", "quantifier": "every finite history of queue operations over any number of queues and any set of element addresses", "why_tests_cant": "tests exercise a handful of fixed insertion orders; aliasing and interleaving between queues is unbounded", "anchors": ["src/common/util/queue.c: queue_init, queue_insert, queue_insert_tail, queue_remove, queue_empty, queue_head, queue_next, queue_prev, queue_tail"]}
{"id": "C02", "title": "Removing an element twice from a queue is harmless", "statement": "Removing an element that has already been removed and not re-inserted changes no queue.", "quantifier": "every history and every element that is currently unlinked after a removal", "why_tests_cant": "the double removal can occur at any point of an unbounded history", "anchors": ["src/common/util/queue.c: queue_remove"]}
{"id": "C03", "title": "Live allocations never overlap and are zero filled", "statement": "While no size class has been exhausted: every successful allocation returns a block at least as large as requested, all zero, disjoint from every block that is still allocated; allocating or freeing never changes the contents of another live block.", "quantifier": "every history of allocations, frees of live blocks and in-bounds writes, for every requested size", "why_tests_cant": "overlap depends on the whole history of allocation and free, which is unbounded", "anchors": ["src/common/mem.c: mem_pool_alloc, mem_pool_free, mem_pool_init"]}
{"id": "C04", "title": "Exhausting the allocator is reported, not undefined", "statement": "When a size class has no free block left, an allocation from it returns NULL and leaves every live block intact; an allocation from another class is unaffected.", "quantifier": "every history of allocations and frees, including those that use up a class", "why_tests_cant": "needs over a thousand live objects of one class in a particular state; ordinary tests never get there", "anchors": ["src/common/mem.c: mem_pool_alloc"]}
{"id": "C05", "title": "Freeing returns capacity", "statement": "The number of blocks of a class that can still be allocated always equals the class size minus the number of its live blocks, so alloc/free cycles never lose capacity.", "quantifier": "every history of allocations and frees of live blocks", "why_tests_cant": "a leak of one block per rare path only shows after an unbounded number of cycles", "anchors": ["src/common/mem.c: mem_pool_alloc, mem_pool_free"]}
{"id": "C06", "title": "A rejected free leaves the allocator usable", "statement": "If the allocator rejects a pointer passed to free, later allocations and frees still complete.", "quantifier": "every state of the allocator and every rejected pointer", "why_tests_cant": "the failure is a lock kept held; it shows only in the call after the one a test looks at", "anchors": ["src/common/mem.c: mem_pool_free, mem_pool_alloc"]}
{"id": "C07", "title": "Message buffers are bounded FIFOs", "statement": "Appending to a message buffer either adds exactly the given bytes after the pending ones or, when they do not fit, fails and changes nothing; consuming takes bytes from the front; clearing makes the whole capacity available; no byte outside the buffer is ever written.", "quantifier": "every capacity and every sequence of append, receive, consume and clear operations", "why_tests_cant": "boundary cases depend on the running sum of an arbitrary sequence of sizes", "anchors": ["src/common/meta.c: meta_alloc, meta_pdata, meta_getlens", "src/common/meta.h: meta_getlen, meta_getfree, meta_clr"]}
{"id": "C08", "title": "Flattening a buffer chain is concatenation", "statement": "Flattening a chain of message buffers yields the concatenation of the pending bytes of every buffer in order, whose length is the reported total length, and leaves the chain unchanged.", "quantifier": "every chain of buffers with any pending contents", "why_tests_cant": "chains and contents are unbounded", "anchors": ["src/common/meta.c: meta_dump, meta_getlens"]}
{"id": "C09", "title": "The ring buffer is a FIFO", "statement": "The bytes pulled from a ring buffer are exactly the bytes pushed, in the same order, a push that fits succeeds, and no access leaves the buffer.", "quantifier": "every capacity and every sequence of pushes and pulls of any size", "why_tests_cant": "wrap-around states depend on an arbitrary history of sizes", "anchors": ["src/common/ringbuffer.c: ringbuffer_push, ringbuffer_pull"]}
{"id": "C10", "title": "Taking minima from the heap yields keys in order", "statement": "With only insertions and removals of the current minimum, the minimum reported is always a smallest key among the elements inserted and not yet removed, ties included, and a full heap refuses insertion unchanged.", "quantifier": "every history of insert and remove-minimum operations, any keys, any capacity", "why_tests_cant": "heap shape depends on the entire insertion order", "anchors": ["src/common/util/bheap.c: heap_add, heap_del, heap_min"]}
{"id": "C11", "title": "Removing a heap element removes that element only", "statement": "Removing an element by its recorded position removes exactly that element, keeps all others, and every remaining element still knows its own position.", "quantifier": "every heap with consistent positions and every element in it", "why_tests_cant": "all heap shapes and positions", "anchors": ["src/common/util/bheap.c: heap_del"]}
{"id": "C12", "title": "The minimum is right after removing an arbitrary element", "statement": "After removing any element, the minimum reported is still a smallest key of the remaining elements.", "quantifier": "every history of insertions and removals of arbitrary elements", "why_tests_cant": "needs a particular shape: the last element must be smaller than the parent of the removed one", "anchors": ["src/common/util/bheap.c: heap_del, heap_min"]}
{"id": "C13", "title": "Timers never fire early, twice or after being cancelled", "statement": "A timer callback runs only if the timer was armed, has not been re-armed or cancelled since, and at least the requested number of milliseconds has passed; it runs once per arming.", "quantifier": "every history of arming, cancelling and expiry runs, with callbacks that arm and cancel timers, with the timer table not full", "why_tests_cant": "interleavings of arming, cancelling and clock readings are unbounded", "anchors": ["src/common/timer.c: tm_add, tm_del, timer_expire"]}
{"id": "C14", "title": "Every due timer fires in an expiry run", "statement": "When an expiry run returns, no armed timer is due, and the wait time it reports does not exceed the time to the earliest remaining deadline.", "quantifier": "every history of arming, cancelling and expiry runs", "why_tests_cant": "depends on heap shape after arbitrary cancellations", "anchors": ["src/common/timer.c: timer_expire", "src/common/util/bheap.c: heap_del"]}
{"id": "C15", "title": "A refused arming leaves other timers alone", "statement": "When arming a timer is refused because the table is full, cancelling or re-arming that timer later has no effect on any other timer.", "quantifier": "every state with a full timer table", "why_tests_cant": "needs a full table of 1536 timers and a following cancellation", "anchors": ["src/common/timer.c: tm_add, tm_del"]}
{"id": "C16", "title": "Binary search tree lookup", "statement": "After any sequence of insertions a key is found if and only if it was inserted, and the node returned carries that key.", "quantifier": "every sequence of insertions of any keys", "why_tests_cant": "all insertion orders", "anchors": ["src/common/util/bst.c: bst_add, bst_find"]}
{"id": "C17", "title": "Binary search tree deletion", "statement": "Deleting a present key succeeds, afterwards one occurrence of that key is gone and every other key is still found.", "quantifier": "every tree built by insertions and deletions and every present key", "why_tests_cant": "tree shape and position of the deleted node are unbounded", "anchors": ["src/common/util/bst.c: bst_del, bst_min"]}
{"id": "C18", "title": "The hash table is a finite map that keeps the first value", "statement": "Looking up a key returns the value of the first insertion of that key since its last deletion, and nothing if there is none; operations on one key never change what another key returns, whatever the hash values; a failed insertion changes nothing.", "quantifier": "every table size and every history of insertions, deletions and lookups with any byte-string keys, including colliding keys and allocation failures", "why_tests_cant": "collisions and histories are unbounded", "anchors": ["src/common/util/ezhash.c: ezhash_add, ezhash_find, ezhash_del, ezhash_create", "src/common/util/ezhash.c: fnv1a_32"]}
{"id": "C19", "title": "Growable arrays and lists keep what was pushed", "statement": "The n-th element of a growable array is what the n-th push stored, positions outside 1..n give nothing, and a list contains the pushed elements in order.", "quantifier": "every sequence of pushes", "why_tests_cant": "unbounded histories", "anchors": ["src/common/util/arr.c: mem_arr_push, mem_arr_get", "src/common/util/list.c: mem_list_push"]}
{"id": "C20", "title": "Substring search finds exactly the occurrences", "statement": "Searching a byte string for a non-empty pattern reports a position if and only if the pattern occurs in the string, and the position reported is the first occurrence; the search reads only bytes of the two strings.", "quantifier": "every string and every pattern", "why_tests_cant": "the failing cases involve bytes after the end of the string, which tests do not control", "anchors": ["src/common/sys_string.c: l_find_str"]}
{"id": "C21", "title": "A registered key is accepted by the key matcher", "statement": "A matcher that is built from a set of keys and is in its initial state accepts every registered non-empty key.", "quantifier": "every set of keys for which the matcher can be built and every key in it", "why_tests_cant": "all key sets", "anchors": ["src/common/aho_corasick.c: ezac_add, ezac_compiler, ezac_find"]}
{"id": "C22", "title": "The key matcher accepts only texts that contain a key", "statement": "A fresh matcher accepts a text only if some registered key occurs in it.", "quantifier": "every set of keys and every text", "why_tests_cant": "false accepts need particular overlaps between key and text", "anchors": ["src/common/aho_corasick.c: ezac_find, ezac_compiler"]}
{"id": "C23", "title": "Building the key matcher never fails on valid keys", "statement": "For every set of registered keys building the matcher completes without an invalid memory access.", "quantifier": "every set of keys", "why_tests_cant": "the crash needs a particular prefix relation among the keys", "anchors": ["src/common/aho_corasick.c: ezac_add, ezac_compiler"]}
{"id": "C24", "title": "An authentication verdict depends on the presented key only", "statement": "Whether a key presented by one connection is accepted does not depend on keys presented earlier by other connections.", "quantifier": "every sequence of presented keys", "why_tests_cant": "requires an adversarial sequence of earlier attempts", "anchors": ["src/common/aho_corasick.c: ezac_find", "src/app/tls_tunnel_s.c: tls_tunnel_s_auth_chk"]}
{"id": "C25", "title": "Client and server agree on the authentication header", "statement": "The header a client builds from a configured key of 1 to 16 non-NUL bytes is accepted by a fresh server that has this key registered, however the header is split into receives; a header with a different magic number is refused.", "quantifier": "every key of at most 16 bytes, every split of the 36 bytes", "why_tests_cant": "all keys and all splits", "anchors": ["src/app/tls_tunnel_c.c: tls_tunnel_c_auth_build", "src/app/tls_tunnel_s.c: tls_tunnel_s_auth_chk"]}
{"id": "C26", "title": "Long keys authenticate", "statement": "A client configured with a key of any length the configuration accepts (up to 32 bytes) is accepted by a server with the same key registered.", "quantifier": "every key of 1 to 32 bytes", "why_tests_cant": "tests use a short key", "anchors": ["src/app/tls_tunnel_c.c: tls_tunnel_c_auth_build", "src/common/config.c: s5_local_auth"]}
{"id": "C27", "title": "No tunnelled byte is lost after authentication", "statement": "Bytes which arrive right behind the authentication header are processed by the next phase.", "quantifier": "every number of bytes received together with the header", "why_tests_cant": "depends on how TCP/TLS coalesces writes", "anchors": ["src/app/tls_tunnel_s.c: tls_tunnel_s_auth_chk"]}
{"id": "C28", "title": "SOCKS5 greeting parsing is independent of segmentation", "statement": "For every greeting VER NMETHODS METHODS with 1 to 255 methods, however it is split into receives, the server replies 05 00 exactly once after the last byte and never before.", "quantifier": "every greeting and every split", "why_tests_cant": "exponentially many splits and all greetings", "anchors": ["src/app/socks5.c: s5_p1_req, s5_p1_rsp"]}
{"id": "C29", "title": "The greeting parser stays in bounds", "statement": "No sequence of bytes sent as a greeting makes the server write outside the storage for the methods.", "quantifier": "every byte sequence and every split", "why_tests_cant": "all inputs", "anchors": ["src/app/socks5.c: s5_p1_req", "src/app/socks5.h: s5_ph1_req_t"]}
{"id": "C30", "title": "SOCKS5 request parsing follows the RFC for every segmentation", "statement": "For every well-formed request (IPv4 or domain of 1..255 bytes, any port) and every split into receives, the request is complete exactly at its last byte and the address and port extracted are those encoded.", "quantifier": "every well-formed request and every split", "why_tests_cant": "all requests and all splits", "anchors": ["src/app/socks5.c: s5_p2_req"]}
{"id": "C31", "title": "Only CONNECT requests to IPv4 or domain targets are served", "statement": "A request is dialled only if its version is 5, its command is CONNECT and its address type is IPv4 or domain; every other request closes the session without dialling.", "quantifier": "every byte sequence and every split", "why_tests_cant": "all inputs", "anchors": ["src/app/socks5.c: s5_p2_req"]}
{"id": "C32", "title": "The request parser stays in bounds", "statement": "No sequence of bytes sent as a request makes the server write outside the storage for the address.", "quantifier": "every byte sequence and every split", "why_tests_cant": "all inputs", "anchors": ["src/app/socks5.c: s5_p2_req"]}
{"id": "C33", "title": "The address dialled is the address requested", "statement": "For an IPv4 request the server connects to exactly that address and port; for a domain it resolves exactly the domain sent.", "quantifier": "every IPv4 address, every port and every domain of 1..255 bytes", "why_tests_cant": "2^48 addresses, all domains", "anchors": ["src/app/socks5.c: s5_cup_addr, s5_p2_req"]}
{"id": "C34", "title": "The connect reply is a well-formed SOCKS5 reply", "statement": "After a successful connect the client receives exactly the ten bytes of a success reply with address type IPv4, whose bound port and address are those of the connected address.", "quantifier": "every local address and port", "why_tests_cant": "byte order errors show only for particular values", "anchors": ["src/app/socks5.c: s5_cup_connect_chk, s5_p2_rsp"]}
{"id": "C35", "title": "Pipelined handshake bytes are not lost", "statement": "If the client sends its greeting, request and first payload without waiting for replies, the outcome is the same as when it waits.", "quantifier": "every split of the concatenated byte stream", "why_tests_cant": "depends on segmentation", "anchors": ["src/app/socks5.c: s5_p1_req, s5_p2_req", "src/common/meta.h: meta_clr"]}
{"id": "C36", "title": "The relay transports each byte stream unchanged", "statement": "At every moment the bytes sent to the upstream are a prefix of the bytes received from the client (after those buffered at hand-over), and those sent to the client are a prefix of those received from the upstream: nothing is lost, duplicated, reordered or invented.", "quantifier": "every interleaving of readiness events, every receive and send size, would-block results and errors", "why_tests_cant": "schedules and sizes are unbounded", "anchors": ["src/app/tls_tunnel_s.c: tls_tunnel_traffic_recv, tls_tunnel_traffic_send, tls_tunnel_traffic_reverse_recv, tls_tunnel_traffic_reverse_send"]}
{"id": "C37", "title": "The relay never stalls", "statement": "Whenever the relay waits for events, for each direction either it waits for the source to become readable after having drained it, or it holds data and waits for the sink to become writable; its buffers never overflow.", "quantifier": "every interleaving of events and I/O results, over plain sockets", "why_tests_cant": "a lost wake-up needs a specific interleaving under edge-triggered notification", "anchors": ["src/app/tls_tunnel_s.c: tls_tunnel_traffic_recv, tls_tunnel_traffic_send, tls_tunnel_traffic_reverse_recv, tls_tunnel_traffic_reverse_send, tls_tunnel_traffic_proc"]}
{"id": "C38", "title": "Everything received is forwarded before a normal close", "statement": "When one side closes, all bytes received from that side have been sent to the other side before the session is torn down, unless the other side failed.", "quantifier": "every interleaving of events and I/O results", "why_tests_cant": "needs close at arbitrary points of a transfer", "anchors": ["src/app/tls_tunnel_s.c: tls_tunnel_traffic_recv, tls_tunnel_traffic_send, tls_tunnel_traffic_reverse_recv, tls_tunnel_traffic_reverse_send"]}
{"id": "C39", "title": "Half-close does not lose the opposite direction", "statement": "When one side closes after sending, bytes already received from the opposite side are still delivered to it.", "quantifier": "every interleaving of events and I/O results", "why_tests_cant": "needs a would-block on one direction at the time of close", "anchors": ["src/app/tls_tunnel_s.c: tls_tunnel_traffic_recv, tls_tunnel_traffic_reverse_recv"]}
{"id": "C40", "title": "Host names are encoded correctly in DNS queries", "statement": "For every host name of non-empty dot-separated labels of at most 63 bytes, total at most 253 bytes, the query name is the RFC 1035 encoding, i.e. decoding it yields the labels.", "quantifier": "every such host name", "why_tests_cant": "all host names", "anchors": ["src/dns/dns.c: dns_request_host2qname"]}
{"id": "C41", "title": "Every accepted domain can be queried safely", "statement": "Building a DNS query for any domain the SOCKS5 layer accepts (1..255 bytes) touches only memory of the query.", "quantifier": "every domain of 1..255 bytes", "why_tests_cant": "boundary lengths and odd label structures", "anchors": ["src/dns/dns.c: dns_request_host2qname, dns_request_packet", "src/dns/dns.h"]}
{"id": "C42", "title": "DNS queries are well-formed", "statement": "The query packet is a header with one question, recursion desired, followed by the encoded name, type A, class IN.", "quantifier": "every host name that can be encoded", "why_tests_cant": "all host names", "anchors": ["src/dns/dns.c: dns_request_packet"]}
{"id": "C43", "title": "A correct DNS response yields its first address", "statement": "For every response that carries the question, then any number of CNAME or other records and then an A record, all with compressed owner names, the address delivered is the one of the first A record.", "quantifier": "every response of that form, any number and size of records", "why_tests_cant": "responses are unbounded", "anchors": ["src/dns/dns.c: dns_response_analyze"]}
{"id": "C44", "title": "Any DNS response is handled within the received packet", "statement": "Handling a response terminates and reads only bytes of the packet received.", "quantifier": "every packet of every length", "why_tests_cant": "hostile packets", "anchors": ["src/dns/dns.c: dns_response_recv, dns_response_analyze"]}
{"id": "C45", "title": "A DNS answer is used only for the question asked", "statement": "A response is used only if its identifier and its question match the pending query.", "quantifier": "every packet", "why_tests_cant": "needs a forged or late packet", "anchors": ["src/dns/dns.c: dns_response_recv, dns_response_analyze"]}
{"id": "C46", "title": "Uncompressed answers are understood", "statement": "A response whose answer carries the owner name uncompressed yields the address of its A record.", "quantifier": "every owner name", "why_tests_cant": "servers in tests compress", "anchors": ["src/dns/dns.c: dns_response_analyze"]}
{"id": "C47", "title": "The DNS cache answers with an address recorded for that domain", "statement": "A lookup returns an address only if that address was recorded for exactly this domain and not evicted since.", "quantifier": "every history of insertions, lookups and eviction passes", "why_tests_cant": "unbounded histories", "anchors": ["src/dns/dns.c: dns_rec_add, dns_rec_find, dns_rec_chk"]}
{"id": "C48", "title": "Cached addresses expire", "statement": "An entry is no longer returned once its time to live has passed and an eviction pass has run; an entry is not evicted before that.", "quantifier": "every history and every clock", "why_tests_cant": "needs hours of clock", "anchors": ["src/dns/dns.c: dns_rec_chk, dns_rec_add"]}
{"id": "C49", "title": "A complete HTTP request is parsed correctly", "statement": "A well-formed request received in one piece is parsed into exactly its method, URI and headers.", "quantifier": "every well-formed request head that fits the buffer, with any headers", "why_tests_cant": "all requests", "anchors": ["src/http/http_req.c: web_req_line, web_req_hdrs"]}
{"id": "C50", "title": "HTTP parsing is independent of segmentation", "statement": "Splitting a request over several receives does not change the result and processing always terminates.", "quantifier": "every request and every split", "why_tests_cant": "all splits", "anchors": ["src/http/http_req.c: web_req_line, web_req_hdrs"]}
{"id": "C51", "title": "Header storage is never overrun", "statement": "No request, however many headers it has, makes the parser write outside the header table.", "quantifier": "every byte sequence", "why_tests_cant": "all inputs", "anchors": ["src/http/http_req.c: web_req_hdrs"]}
{"id": "C52", "title": "The request body is exactly what was sent", "statement": "A request with Content-Length n delivers the n bytes after the header block as its body, for every split of the body.", "quantifier": "every body that fits the buffer and every split", "why_tests_cant": "all bodies and splits", "anchors": ["src/http/http_req.c: web_req_payload"]}
{"id": "C53", "title": "Header fields are recognised by their full names", "statement": "A header is treated as Content-Length or Connection exactly if its name equals that name, ignoring case; a method is recognised exactly if it equals the method name.", "quantifier": "every header name and every method token", "why_tests_cant": "prefix names are not in tests", "anchors": ["src/http/http_req.c: web_req_hdrs, web_req_line"]}
{"id": "C54", "title": "API requests are routed to the handler registered for path and method", "statement": "A request is dispatched to a handler only if the handler was registered with exactly this path and method, and if one is registered the request is not served as a file.", "quantifier": "every set of registrations and every request", "why_tests_cant": "all registrations and paths", "anchors": ["src/app/webser.c: webser_api_find, webser_api_reg, webser_req_router"]}
{"id": "C55", "title": "File requests stay below the document root", "statement": "A file is served only if its path lies below the configured document root.", "quantifier": "every request path", "why_tests_cant": "hostile paths", "anchors": ["src/app/webser.c: webser_req_router, webser_req_file"]}
{"id": "C56", "title": "File path construction stays in its buffer", "statement": "Building the file path never writes outside the path buffer, for any configured root and any request path.", "quantifier": "every root, index name and request path", "why_tests_cant": "boundary lengths", "anchors": ["src/app/webser.c: webser_req_file"]}
{"id": "C57", "title": "Every file name gets a content type", "statement": "For every file name a content type is chosen: the one registered for its extension or a default; files without extension are served.", "quantifier": "every file name", "why_tests_cant": "all names", "anchors": ["src/app/webser.c: webser_rsp_mime, webser_req_file"]}
{"id": "C58", "title": "The announced content length is what is sent", "statement": "The body sent after a response header has exactly the announced length, and for a file it is the content of the file, however sends are split.", "quantifier": "every file content and every sequence of send results", "why_tests_cant": "schedules of partial sends", "anchors": ["src/app/webser.c: webser_rsp_hdrp, webser_rsp, webser_rsp_payload_send_ff"]}
{"id": "C59", "title": "Responses are well-formed HTTP", "statement": "Every response starts with a status line that is terminated by CRLF, followed by header lines and an empty line.", "quantifier": "every status and header set", "why_tests_cant": "error statuses are not in tests", "anchors": ["src/app/webser.c: webser_rsp_hdrp, webser_rsp"]}
{"id": "C60", "title": "Keep-alive connections serve the next request", "statement": "Bytes received behind a complete request are kept for the next one; the connection is closed behind the answer to a request that did not ask to keep it.", "quantifier": "every pair of pipelined requests", "why_tests_cant": "depends on segmentation", "anchors": ["src/app/webser.c: webser_keepalive, webser_start"]}
{"id": "C61", "title": "Sending a buffer chain transmits exactly its bytes", "statement": "Over any sequence of partial sends, interruptions and would-block results, the bytes handed to the kernel are a prefix of the chain contents, what is left pending is the rest, and success is reported exactly when everything was sent.", "quantifier": "every chain and every sequence of send results", "why_tests_cant": "unbounded schedules", "anchors": ["src/common/net_send.c: send_chains, sends, recvs"]}
{"id": "C62", "title": "Events are never delivered to a freed connection", "statement": "A read or write callback is never invoked for a connection that was freed earlier in the same event batch.", "quantifier": "every batch of kernel events and every pattern of frees performed by callbacks", "why_tests_cant": "needs a particular order of events and frees inside one batch", "anchors": ["src/common/event.c: ev_loop, ev_free, ev_epoll_loop"]}
{"id": "C63", "title": "Every reported event is delivered", "statement": "Each event reported by the kernel in a batch for a connection that is not freed during the batch leads to a callback.", "quantifier": "every sequence of batches and frees", "why_tests_cant": "depends on slots remembered from earlier batches", "anchors": ["src/common/event.c: ev_loop, ev_free, ev_epoll_loop"]}
{"id": "C64", "title": "The registered interest equals the requested interest", "statement": "After any sequence of requests the interest set registered with the kernel for a descriptor equals the last one requested.", "quantifier": "every sequence of interest changes", "why_tests_cant": "cached state versus kernel state over unbounded histories", "anchors": ["src/common/event.c: ev_opt, ev_epoll_opt"]}
{"id": "C65", "title": "The event table is never overrun", "statement": "Filling the table of pending events from a kernel batch stays inside the table.", "quantifier": "every batch the kernel may return", "why_tests_cant": "needs a full batch with both events on every descriptor", "anchors": ["src/common/event.c: ev_epoll_loop"]}
{"id": "C66", "title": "The TLS layer restores the application callbacks", "statement": "After a handshake, read or write that had to wait for the other direction has completed, the callbacks and interest of the connection are those the application had set.", "quantifier": "every sequence of want-read / want-write results", "why_tests_cant": "TLS renegotiation results are not controllable in tests", "anchors": ["src/common/ssl.c: ssl_handshake, ssl_handshake_cb, ssl_read, ssl_write"]}
{"id": "C67", "title": "TLS calls always terminate", "statement": "Calls into the TLS layer return for every library result.", "quantifier": "every result and every state of the error queue", "why_tests_cant": "needs a stale entry in the library's error queue", "anchors": ["src/common/ssl.c: ssl_clear_error"]}
{"id": "C68", "title": "Sessions are released exactly once", "statement": "Under any order of client close, upstream close, timeouts and DNS completion, no connection or session is used after it has been released or released twice.", "quantifier": "every order of events during a session", "why_tests_cant": "orders of close, timeout and DNS completion", "anchors": ["src/app/socks5.c: s5_try_read, s5_cup_addr, s5_cup_dns_cb", "src/app/tls_tunnel_s.c: tls_ses_exp, tls_ses_release_cdown", "src/dns/dns.c: dns_alloc, dns_free"]}
{"id": "C69", "title": "The master stops only after all workers are gone", "statement": "The master process ends only after it was asked to stop and every worker has exited.", "quantifier": "every sequence of signals and worker exits", "why_tests_cant": "signal interleavings", "anchors": ["src/common/process.c: proc_master_run"]}
{"id": "C70", "title": "Crashed workers are restarted", "statement": "If no stop was requested, a worker that exits is started again.", "quantifier": "every sequence of signals and worker exits", "why_tests_cant": "signal interleavings", "anchors": ["src/common/process.c: proc_master_run"]}
{"id": "C71", "title": "A stop request reaches every live worker", "statement": "When the master is asked to stop it signals every live worker.", "quantifier": "every set of live and already exited workers", "why_tests_cant": "needs a worker exit at the right moment", "anchors": ["src/common/process.c: proc_signal_bcast"]}
{"id": "C72", "title": "Configuration limits are respected", "statement": "Loading any configuration writes only inside the configuration record, port numbers taken over are those written in the file.", "quantifier": "every configuration document", "why_tests_cant": "all documents", "anchors": ["src/common/config.c: config_parse"]}
{"id": "C73", "title": "A broken configuration is reported", "statement": "If the configuration file cannot be read or parsed, start-up fails.", "quantifier": "every unreadable or malformed file", "why_tests_cant": "needs a malformed file", "anchors": ["src/common/config.c: config_init"]}
{"id": "C74", "title": "Every configured listener is opened or start-up fails", "statement": "After start-up each configured port is listened on, or start-up reported failure.", "quantifier": "every list of ports", "why_tests_cant": "needs more ports than slots", "anchors": ["src/common/listen.c: listen_add, listen_init, listen_start", "src/common/listen.h"]}
{"id": "C75", "title": "Log records stay inside the record buffer", "statement": "Writing a log record reads and writes only the record buffer, and a record longer than the buffer is truncated.", "quantifier": "every message length and argument", "why_tests_cant": "long messages only", "anchors": ["src/common/log.c: log_print"]}
{"id": "C76", "title": "Only enabled levels are logged, under their own name", "statement": "A message is logged exactly if its level is enabled by the configured threshold, and is labelled with its own level.", "quantifier": "every level and threshold", "why_tests_cant": "the label is not checked in tests", "anchors": ["src/common/log.c: log_print"]}
{"id": "C77", "title": "A fresh matcher accepts every text that contains a registered key", "statement": "A matcher built from any key set, used for the first time, accepts every text in which some registered key occurs.", "quantifier": "every key set and every text containing one of the keys", "why_tests_cant": "the number of key sets and texts is unbounded, and the failure needs overlapping keys", "anchors": ["src/common/aho_corasick.c: ezac_find, ezac_compiler"]}
{"id": "C78", "title": "No access without a key", "statement": "Whatever a client sends, in whatever segmentation, the server answers it, resolves a name, dials an address or leaves the authentication phase only if the received bytes begin with the magic number and contain a registered key.", "quantifier": "every input byte sequence, every segmentation, every result of the other calls", "why_tests_cant": "the space of attacker inputs is unbounded", "anchors": ["src/app/tls_tunnel_s.c: tls_tunnel_s_auth_chk", "src/common/aho_corasick.c: ezac_find"]}
{"id": "C79", "title": "Addresses are taken from the answer section only", "statement": "The address delivered for a name comes from a record of the answer section of the response.", "quantifier": "every response with any records in its three sections", "why_tests_cant": "needs responses with records in other sections", "anchors": ["src/dns/dns.c: dns_response_analyze"]}
{"id": "C80", "title": "The time to live of an answer is honoured", "statement": "A recorded address is stored with an expiry of now plus the time to live of the answer, limited to three hours.", "quantifier": "every time to live that fits the field, every clock", "why_tests_cant": "large values wrap silently", "anchors": ["src/dns/dns.c: dns_rec_add, dns_response_analyze"]}
{"id": "C81", "title": "Every answer can be recorded", "statement": "Recording the answer to a query that was sent never stops the process, whatever the queried name and the cache contents.", "quantifier": "every name, every cache history, every outcome of the allocations", "why_tests_cant": "the names are chosen by the clients", "anchors": ["src/dns/dns.c: dns_rec_add, dns_alloc", "src/common/util/ezhash.c: ezhash_add", "src/common/mem.c: mem_pool_alloc"]}
{"id": "C82", "title": "Releasing an array or a list frees each block once", "statement": "Releasing a growable array frees exactly the blocks its successful pushes obtained, each exactly once and none after being freed; the same holds for a list.", "quantifier": "every sequence of pushes with any allocator answers", "why_tests_cant": "the shape of the chain depends on the whole history", "anchors": ["src/common/util/arr.c: mem_arr_free", "src/common/util/list.c: mem_list_free"]}
{"id": "C83", "title": "Parsing a request reads only the request and leaves the process running", "statement": "Whatever a client sends, parsing it neither reads outside the receive buffer nor terminates the worker process.", "quantifier": "every byte sequence and segmentation", "why_tests_cant": "only inputs of particular sizes trigger it", "anchors": ["src/http/http_req.c: web_req_line, web_req_hdrs, web_req_payload", "src/common/net_send.c: recvs"]}
{"id": "C84", "title": "Everything a web connection allocates is released", "statement": "When a web connection is closed, every block allocated while serving its requests has been released.", "quantifier": "every sequence of requests on a keep-alive connection, with and without bodies", "why_tests_cant": "the loss shows only after many requests", "anchors": ["src/app/webser.c: webser_start, webser_keepalive, web_release_c", "src/http/http_req.c: web_req_free, web_req_payload"]}
{"id": "C85", "title": "In secret mode ordinary HTTPS requests are served", "statement": "A client that sends an ordinary HTTP request on the port shared by tunnel and web server gets the answer of the web server.", "quantifier": "every first message that is not a tunnel header", "why_tests_cant": "depends on what the first receive brings", "anchors": ["src/app/webser.c: webser_transfer_to_tlstunnel, webser_start"]}
{"id": "C86", "title": "Serving a request never crashes the worker", "statement": "Routing and answering a parsed request is free of invalid memory accesses, for every request the parser accepts.", "quantifier": "every request, configuration and file system content", "why_tests_cant": "needs particular paths, methods and missing bodies", "anchors": ["src/app/webser.c: webser_req_router, webser_req_file, webser_rsp", "src/app/web_api.c: wapi_echo_post, wapi_echo_get"]}
{"id": "C87", "title": "Commands reach the running master", "statement": "As long as the master process runs, the -stop and -reload commands find and signal it.", "quantifier": "every interleaving of worker starts, exits, crashes, reloads and commands", "why_tests_cant": "the pid file is removed by whichever process reaches the end of main; the loss shows only after a worker has ended in a regular way, for instance after the first reload", "anchors": ["src/main.c: main, option_parse, proc_pid_create", "src/common/process.c: proc_pid_form_file, proc_signal_send"]}
{"id": "C88", "title": "A reload request is acted upon", "statement": "When the master receives a reload request it tells its workers to restart.", "quantifier": "every moment at which the signal is delivered", "why_tests_cant": "the window between testing the flag and going to sleep is a few instructions wide", "anchors": ["src/common/process.c: proc_master_run, proc_signal_cb"]}
{"id": "C89", "title": "Pending relay bytes leave when the receiver can take them", "statement": "Whenever bytes wait for one side of a relay, the program is waiting for that side to become writable; whenever a side may be read, it is waiting for it to become readable.", "quantifier": "every order of events and partial results during a session, TLS side and plain side", "why_tests_cant": "needs a full socket buffer at the moment traffic arrives from the other side", "anchors": ["src/common/ssl.c: ssl_read, ssl_write", "src/app/tls_tunnel_s.c: tls_tunnel_traffic_recv, tls_tunnel_traffic_reverse_send"]}
{"id": "C90", "title": "Every session has a deadline", "statement": "While a session waits for something, at least one of its connections has a running timer, so that a silent peer cannot keep it for ever.", "quantifier": "every order of events during a session, every failing allocation", "why_tests_cant": "needs a failing allocation or a handshake in several rounds", "anchors": ["src/dns/dns.c: dns_alloc", "src/common/ssl.c: ssl_cexp", "src/app/tls_tunnel_c.c: tls_tunnel_c_accept"]}
{"id": "C91", "title": "During the relay only the relay runs", "statement": "Once the relay has started, the callbacks of the handshake, authorization and SOCKS5 phases do not run any more; in particular bytes of one side are only sent to the other side.", "quantifier": "every order of events and partial results during a session", "why_tests_cant": "needs a reply of a few bytes that does not fit into the socket buffer", "anchors": ["src/common/ssl.c: ssl_read, ssl_write", "src/app/socks5.c: s5_p2_rsp", "src/app/tls_tunnel_c.c: tls_tunnel_c_auth_send"]}
{"id": "C92", "title": "A descriptor is closed once", "statement": "No descriptor of a session is closed twice (a second close may hit a descriptor that was opened in between).", "quantifier": "every order of events during a session, every result of connect", "why_tests_cant": "needs connect to fail at once", "anchors": ["src/common/net.c: net_connect, net_free_direct"]}
{"id": "C93", "title": "Everything of a session is released together", "statement": "When the client's connection of a session has been released, the session, the DNS query and the upstream connection have been released, too, or the upstream connection is in its TLS shutdown with a timer.", "quantifier": "every order of events during a session", "why_tests_cant": "orders of close, timeout and DNS completion", "anchors": ["src/app/socks5.c: s5_try_read", "src/app/tls_tunnel_s.c: tls_ses_exp, tls_ses_release_cdown", "src/common/net.c: net_free"]}
{"id": "C94", "title": "Freeing a binary search tree frees every node", "statement": "Freeing a tree frees every node of it exactly once and nothing else.", "quantifier": "every tree built by insertions and deletions", "why_tests_cant": "tree shapes are unbounded; a leak or an overflow of the internal stack is not visible in a small test", "anchors": ["src/common/util/bst.c: bst_free"]}
{"id": "C95", "title": "Parsing a configuration or key file is memory safe", "statement": "Reading any text with the JSON parser ends, never touches memory outside the text or the output, and refuses nesting beyond 1000 levels.", "quantifier": "every byte string", "why_tests_cant": "the space of malformed texts is unbounded; an over-read of one byte does not crash a test", "anchors": ["src/common/cJSON.c: cJSON_ParseWithOpts, parse_string, parse_number"]}
{"id": "C96", "title": "Every JSON document is read with its meaning", "statement": "For every text that RFC 8259 calls a JSON document, parsing gives the value that the text denotes, including escapes, surrogate pairs, numbers and nested values in order.", "quantifier": "every JSON document, every white space between tokens", "why_tests_cant": "documents are unbounded; escapes and number forms combine", "anchors": ["src/common/cJSON.c: parse_value, parse_string, utf16_literal_to_utf8, parse_number, parse_array, parse_object"]}
{"id": "C97", "title": "A cut-off document is noticed", "statement": "If a JSON array or object is cut off anywhere before its end (as after a crash while writing the file), parsing fails instead of giving a part of it.", "quantifier": "every document and every position of the cut", "why_tests_cant": "cuts inside escapes, numbers and nested values of arbitrary documents", "anchors": ["src/common/cJSON.c: cJSON_ParseWithOpts, parse_array, parse_object"]}
{"id": "C98", "title": "A text that is not JSON is refused", "statement": "A text that is no JSON document by RFC 8259 is not accepted as a configuration or key file.", "quantifier": "every byte string", "why_tests_cant": "each test refutes one malformed text only", "anchors": ["src/common/cJSON.c: cJSON_Parse, parse_number, parse_string"]}
{"id": "C99", "title": "The configuration in effect is what the file's text says", "statement": "The members written in the configuration file are the values in effect after start-up; a configuration file that is cut off stops the start-up.", "quantifier": "every configuration text", "why_tests_cant": "needs all texts with the same meaning and all cuts of them", "anchors": ["src/common/config.c: config_init, config_parse", "src/common/cJSON.c: cJSON_Parse"]}
{"id": "C100", "title": "The keys listed in the key file are registered", "statement": "After start-up the registered keys are the strings of the array in the key file, and each of them is accepted.", "quantifier": "every list of keys, every way of writing it as JSON, every size of the file", "why_tests_cant": "the buffer has 4096 bytes; whether the byte behind it is zero depends on the memory", "anchors": ["src/app/tls_tunnel_s.c: tls_tunnel_s_auth_fread, tls_tunnel_s_auth_fparse, tls_tunnel_s_auth_init"]}
{"id": "C101", "title": "An unusable key file is reported", "statement": "If the key file is missing, cut off, or holds entries that are not strings, start-up reports an error; the server does not run without keys or crash.", "quantifier": "every content of the key file", "why_tests_cant": "needs every kind of damage of every file", "anchors": ["src/app/tls_tunnel_s.c: tls_tunnel_s_auth_fparse, tls_tunnel_s_auth_init"]}
{"id": "C102", "title": "Every connection that reaches a listener is taken", "statement": "Whenever the worker waits for events, every connection that has reached a listener has been accepted, in order, and is being read.", "quantifier": "every sequence of arrivals, notifications and results of accept, allocation and socket options", "why_tests_cant": "the listener is edge triggered: a connection left behind by an error in a burst depends on the order of arrivals and errors", "anchors": ["src/common/net.c: net_accept"]}
{"id": "C103", "title": "Accepting loses no descriptor and closes none in use", "statement": "Every descriptor returned by accept belongs to exactly one live connection or has been closed exactly once.", "quantifier": "every sequence of accept results and failures after it", "why_tests_cant": "needs every failure point in every history", "anchors": ["src/common/net.c: net_accept, net_free"]}
{"id": "C104", "title": "A new client has time to send its first message", "statement": "A connection is not closed for silence before the usual waiting time of the program (seconds) has passed since it was accepted.", "quantifier": "every time of arrival and every schedule of the loop", "why_tests_cant": "a local test client sends at once; the wait of 5 ms is met", "anchors": ["src/common/net.c: net_accept, net_exp", "src/common/timer.c: timer_expire"]}
{"id": "C105", "title": "A worker that could not be set up does not serve", "statement": "If a module of a worker cannot be initialised, this is reported and the worker does not serve with missing parts.", "quantifier": "every combination of failing initialisations and every work done afterwards", "why_tests_cant": "needs failing allocations and files in every combination with later requests", "anchors": ["src/common/modules.c: modules_process_init", "src/common/process.c: proc_worker_run", "src/common/timer.c: timer_init", "src/app/tls_tunnel_s.c: tls_tunnel_s_init"]}
{"id": "C106", "title": "A malformed request is refused", "statement": "A web request is accepted only if the bytes received start with a well-formed HTTP request head (method, target, version, header lines, each ended by CR LF); anything else ends the connection.", "quantifier": "every byte string and every way of splitting it into reads", "why_tests_cant": "there are far more malformed requests than can be listed; whether one slips through depends on the state reached by the bytes before", "anchors": ["src/http/http_req.c: web_req_line, web_req_hdrs"]}
{"id": "C107", "title": "A request for a readable file is answered with that file", "statement": "A GET request for an existing readable file below the document root gets a well-formed response with status 200, the type of the file and its length, followed by the content of the file.", "quantifier": "every request, root, file content, and sequence of results of send and read", "why_tests_cant": "needs every file size and every pattern of partial sends", "anchors": ["src/app/webser.c: webser_req_router, webser_req_file, webser_rsp, webser_rsp_payload_send_ff", "src/http/http_req.c: web_req_line, web_req_hdrs"]}
{"id": "C108", "title": "The select back end reports exactly what was asked for", "statement": "On systems without epoll, in every round of the loop every connection that asked for reading or writing and is ready for it is entered once, and no connection is told about something it has not asked for.", "quantifier": "every history of connections opened, changing their interest and closed, every reuse of descriptor numbers, and every state of the sockets", "why_tests_cant": "the sets outlive the connections: what goes wrong depends on which numbers are closed, reused, or above the others; and the back end is not compiled on the usual test machine", "anchors": ["src/common/event.c: ev_select_opt, ev_select_loop", "src/common/net.c: net_free_direct"]}
{"id": "C109", "title": "Timeouts do not depend on the setting of the clock", "statement": "A timeout of N milliseconds expires N milliseconds after it was started, up to the slack of one round of the loop, also if the date and time of the machine are set meanwhile.", "quantifier": "every history of armings, cancellations and expiry runs, and every sequence of clock readings", "why_tests_cant": "a test would have to set the clock of the machine at the right moment; the length of the step decides which of three different failures is seen", "anchors": ["src/common/sys_time.c: systime_update", "src/common/timer.c: tm_add, timer_expire", "src/common/process.c: proc_worker_run", "src/common/event.c: ev_loop"]}
{"id": "C110", "title": "Shutting down releases the key matcher exactly once", "statement": "Releasing the key matcher frees every node that was allocated for it exactly once and uses none after its release.", "quantifier": "every set of registered keys for which the matcher was built", "why_tests_cant": "the order of release depends on the shape of the whole set; a test sees a few shapes, and a double release need not show", "anchors": ["src/common/aho_corasick.c: ezac_node_free, ezac_free", "src/app/tls_tunnel_s.c: tls_tunnel_s_exit"]}
{"id": "C111", "title": "Date and log texts name the moment", "statement": "The Date field of a response and the answer of the echo API are a date text of HTTP that names, with the right day of the week, the second of the last reading of the clock; the time in a log record is the local time of that reading to the millisecond; writing the texts never overruns their buffers.", "quantifier": "every second up to the year 9999, every time zone, every sequence of rounds of the event loop", "why_tests_cant": "a test sees the day on which it runs; month ends, leap years, the days of the week and unset clocks are other days", "anchors": ["src/common/sys_time.c: systime_update, systime_gmt, systime_log", "src/app/webser.c: webser_rsp", "src/app/web_api.c: wapi_echo_get", "src/common/log.c: log_format_prefix"]}
{"id": "C112", "title": "One whole tunnel carries the application's bytes to the target it asked for, and back", "statement": "An application talks SOCKS5 to the client program, waiting for each answer. With a key the server accepts, the target receives exactly the bytes the application wrote after its request, in order, without loss, change or repetition; the application receives the two answers and then exactly the target's bytes; the server looks up and dials only what the request names; neither program crashes, and neither ends the session unless a call fails, a stream ends or a timer fires. With a key the server does not accept nobody ever receives a byte and nothing is dialled. Requests are CONNECT to an IPv4 address or to a name of 1 to 254 bytes.", "quantifier": "every interleaving of application, client, server and target, every split of the bytes at every hop, every greeting and request, every accepted key of up to 16 bytes, every payload", "why_tests_cant": "the outcome depends on how four parties interleave and where every hop cuts the stream; two tested programs do not make a tested pair", "anchors": ["src/app/tls_tunnel_c.c: tls_tunnel_c_recv, tls_tunnel_c_auth_send, tls_tunnel_c_accept", "src/app/tls_tunnel_s.c: tls_tunnel_s_auth_chk, tls_tunnel_traffic_proc", "src/app/socks5.c: s5_p1_req, s5_p2_req"]}
{"id": "C113", "title": "A signal never crashes a process", "statement": "Whatever signals with a handler arrive, and whenever, no process of the program touches memory that is not there, and the interrupted computation finds errno unchanged.", "quantifier": "every process (master with any number of workers and rounds, every worker, the single process), every sequence of signals, every moment between two statements", "why_tests_cant": "the critical moments are a few instructions at start and end; a test cannot aim a signal at them", "anchors": ["src/common/process.c: proc_signal_cb, proc_signal_init, process_init, process_end, proc_waitpid, proc_master_run, proc_worker_run", "src/main.c: main", "src/common/modules.c: modules_core_init, modules_core_exit"]}
{"id": "C114", "title": "A worker told to stop stops", "statement": "After SIGINT a worker ends its loop without waiting any more: it does not sit out a wait for events before it looks at the flag.", "quantifier": "every history of timers and rounds of the loop, every moment of the signal", "why_tests_cant": "whether the signal falls into the wait or right before it is a matter of microseconds; the second case is the slow one", "anchors": ["src/common/process.c: proc_worker_run, proc_signal_cb", "src/common/timer.c: timer_expire", "src/common/event.c: ev_epoll_loop, ev_loop"]}
{"id": "C115", "title": "The configuration file is read completely", "statement": "A configuration file that can be opened is read completely, in whatever pieces the system delivers it, and without touching memory outside the buffer; the values in effect are the ones it contains.", "quantifier": "every file, every way the reads cut it into pieces, every moment at which it changes or a read fails", "why_tests_cant": "a test file is small, comes in one piece and does not change; closed standard input and growth between stat and read are states of the environment", "anchors": ["src/common/config.c: config_init, config_parse", "src/common/mem.c: sys_alloc"]}
{"id": "C116", "title": "A stop request made while the program starts is obeyed", "statement": "A SIGINT that arrives before the master waits for the first time is acted upon as soon as it waits: the master does not sleep with the request unseen.", "quantifier": "every number of workers, every moment before the first wait", "why_tests_cant": "the window between the set-up of the handlers and the blocking of the signals is short; a lost request shows as a program that keeps running", "anchors": ["src/common/process.c: proc_master_run, proc_signal_cb, process_init"]}
{"id": "C117", "title": "Every TLS connection has the settings of the program", "statement": "A TLS connection, on either side, is only ever made with TLS 1.2 as its lowest version and TLS 1.3 as its highest, and on the server with the listed ciphers only; if one of these settings cannot be made, no connection is made.", "quantifier": "every sequence of connections made and released in both roles, whatever the TLS library, the allocator and the files answer", "why_tests_cant": "the contexts are kept for all later connections, so one refusal at the first of them decides about all; a test does not make the library refuse a setting", "anchors": ["src/common/ssl.c: ssl_load_ctx_certificate, ssl_load_con_certificate, ssl_create_connection"]}
{"id": "C118", "title": "The server shows the certificate that is in its files", "statement": "A TLS connection of the server is made only if the certificate file and the key file are readable and belong together at that moment; it shows that certificate and no other.", "quantifier": "every sequence of connections and every replacement of the two files between and during them", "why_tests_cant": "what is shown depends on the files at the first connection and at this one; a test has one pair of files", "anchors": ["src/common/ssl.c: ssl_load_ctx_certificate, ssl_load_con_certificate"]}
{"id": "C119", "title": "A failed attempt to start TLS leaves nothing behind", "statement": "At every moment exactly those TLS objects and memory blocks are live that belong to connections handed out and not yet released, plus at most one context per role; ending the TLS module releases the contexts.", "quantifier": "every sequence of connections made and released in both roles, whatever call fails", "why_tests_cant": "each of the ten ways to fail has its own clean-up; leaks and double releases do not show in the result", "anchors": ["src/common/ssl.c: ssl_create_connection, ssl_load_ctx_certificate, ssl_load_con_certificate, ssl_end", "src/common/net.c: net_free_direct"]}
{"id": "C120", "title": "The client gives its key only to a server it can identify", "statement": "The client sends its key only after it has checked that the certificate shown by the server is one it trusts.", "quantifier": "every sequence of connections, every server", "why_tests_cant": "a test talks to the right server; the point is what happens with another one", "anchors": ["src/common/ssl.c: ssl_load_ctx_certificate", "src/app/tls_tunnel_c.c: tls_tunnel_c_connect_ssl, tls_tunnel_c_auth_build"]}
{"id": "C121", "title": "The tunnel never gets stuck", "statement": "At every moment of a tunnel in which no call has failed, no stream has ended and no timer has fired, everything the application and the target have written so far can still be delivered: the two programs can go on by themselves, without another byte from either side, until the target has all that the application wrote behind its request, and the application has the answers and all that the target wrote.", "quantifier": "every interleaving and every split of the bytes so far, every greeting and request, every accepted key, every payload", "why_tests_cant": "whether some order of events leads to a state from which nothing moves any more is a question about all reachable states of four parties", "anchors": ["src/app/tls_tunnel_s.c: tls_tunnel_traffic_recv, tls_tunnel_traffic_send, tls_tunnel_traffic_reverse_recv, tls_tunnel_traffic_reverse_send, tls_tunnel_traffic_proc", "src/app/socks5.c: s5_p1_req, s5_p2_req, s5_p2_rsp", "src/app/tls_tunnel_c.c: tls_tunnel_c_auth_send"]}
{"id": "C122", "title": "An answer of the web server that had to wait is continued", "statement": "If the socket cannot take all of an answer at once, the rest is sent when it can: as long as no call fails, the peer stays and no timer runs out, all answers to the requests received so far can still be sent completely, without another request.", "quantifier": "every order of events and results of calls, every head, file and handler data, plain and TLS connections, any number of requests on one connection", "why_tests_cant": "small answers never have to wait on a local connection; whether the connection is ever called back depends on interest and callbacks left by everything that happened before", "anchors": ["src/app/webser.c: webser_rsp_hdr_send, webser_rsp_payload_send_ff, webser_rsp_payload_send_api, webser_try_read", "src/common/net.c: net_accept", "src/common/event.c: ev_loop", "src/common/ssl.c: ssl_write, ssl_read, ssl_handshake_cb"]}
{"id": "C123", "title": "No connection of the web server waits without a deadline", "statement": "Whenever a connection of the web server is left to the event loop its timer is armed; when the timer runs out, the connection is released, or shut down and released by the next run-out at the latest, and nothing more is sent on it.", "quantifier": "every order of events and results of calls, failures included, plain and TLS connections", "why_tests_cant": "a connection without a deadline is one leaked for ever, in some state that a test would have to reach and then wait in", "anchors": ["src/app/webser.c: web_exp, webser_req_proc, webser_accept_cb_ssl, webser_rsp_hdr_send", "src/common/net.c: net_accept, net_free, net_exp", "src/common/ssl.c: ssl_handshake_cb, ssl_shutdown"]}
{"id": "C124", "title": "A name stands for what the server that was asked says", "statement": "The address used for a name is one that the configured name server sent in answer to a query for it; datagrams of others change nothing.", "quantifier": "every history of lookups and passes over the cache, every datagram from anybody at any time", "why_tests_cant": "a test has one well-behaved name server; the point is what strangers can do, and what remains in the cache afterwards", "anchors": ["src/dns/dns.c: dns_alloc, dns_response_recv, dns_rec_chk", "src/common/net_send.c: udp_recvs", "src/app/socks5.c: s5_cup_addr"]}
{"id": "C125", "title": "Decrypting gives back what was encrypted", "statement": "What aes_cfb_encrypt or sys_aesgcm_enc (new context) wrote, given to aes_cfb_decrypt or sys_aesgcm_dec (new context), gives the message back, with its length as return value; a function that failed says so by its return value, and a CFB function that failed has written nothing.", "quantifier": "every message, key, block function and buffer large enough, whatever call of the library fails", "why_tests_cant": "all messages and all failures of the library; a test tries a few messages with one key", "anchors": ["src/common/sys_cipher.c: aes_cfb_encrypt, aes_cfb_decrypt, sys_aesgcm_enc, sys_aesgcm_dec, sys_aesgcm_ctx_init"]}
{"id": "C126", "title": "Encrypted messages tell nothing to those without the key", "statement": "Who does not have the key can tell from encrypted messages nothing but their lengths; in particular neither whether two are equal, nor what one says by knowing another.", "quantifier": "all pairs of messages, every key", "why_tests_cant": "a statement about everything an observer could compute", "anchors": ["src/common/sys_cipher.c: aes_cfb_encrypt, sys_aesgcm_ctx_init"]}
{"id": "C127", "title": "A forged message yields nothing", "statement": "A message whose tag is not the right one is rejected and the caller's buffer stays as it was.", "quantifier": "every ciphertext, tag and buffer, whatever call of the library fails", "why_tests_cant": "a test of a bad tag looks at the return value; the question is about the bytes left behind, for all changes to the message", "anchors": ["src/common/sys_cipher.c: sys_aesgcm_dec"]}
{"id": "C128", "title": "Random bytes are random", "statement": "When sys_genrand_16byte reports success, the 16 bytes in the buffer are bytes of the system's random device.", "quantifier": "every outcome of opening and reading the device, every buffer", "why_tests_cant": "the device is always there and complete on the machine that runs the tests", "anchors": ["src/common/sys_cipher.c: sys_genrand_16byte"]}
{"id": "C129", "title": "One cipher context serves many messages", "statement": "A context made by sys_aesgcm_ctx_init can be used for one message after the other.", "quantifier": "every context, every sequence of messages", "why_tests_cant": "a test makes a context for its message", "anchors": ["src/common/sys_cipher.c: sys_aesgcm_enc, sys_aesgcm_dec, sys_aesgcm_ctx_init"]}
{"id": "C130", "title": "A hash table holds the memory of its entries and gives it back", "statement": "Whatever is added to, removed from and looked up in a hash table, its live memory is exactly the table, the bucket array and three blocks per entry; nothing that was released is used; releasing the table gives back all of it, each block once.", "quantifier": "every sequence of additions, removals, look-ups and expiry walks, every failing allocation, every interleaving with other users of the pool", "why_tests_cant": "leaks and late uses depend on which of three allocations fails and on how keys share buckets; tests see neither", "anchors": ["src/common/util/ezhash.c: ezhash_create, ezhash_add, ezhash_del, ezhash_find, ezhash_free", "src/dns/dns.c: dns_rec_chk"]}
{"id": "C131", "title": "A worker that is told to stop takes down what it built", "statement": "Whatever part of its start-up failed and whatever it has done since, a worker that is told to stop ends without an invalid access, finishes or closes the connections it has, and releases everything it built, each thing once.", "quantifier": "every combination of failures during the start-up, every set of listeners, every history before the stop", "why_tests_cant": "the end of a worker is not looked at by tests, and failures of the start-up combine with each module's clean-up", "anchors": ["src/common/modules.c: modules_process_init, modules_pocess_exit", "src/common/event.c: ev_init, ev_exit", "src/common/timer.c: timer_end", "src/common/listen.c: listen_end", "src/app/webser.c: webser_init, webser_end", "src/dns/dns.c: dns_init, dns_end", "src/common/process.c: proc_worker_run"]}
{"id": "C132", "title": "Commands reach the running instance, whatever was started and ended before", "statement": "However instances of the program are started, fail to start, end, or are killed, one after the other or side by side, -stop and -reload signal an instance that is running, and if none is running they signal nobody.", "quantifier": "every history of starts (with every outcome of every step), ends and crashes of any number of instances", "why_tests_cant": "tests start and stop one instance; the file that names it is shared by all of them", "anchors": ["src/main.c: proc_pid_create, option_parse, main", "src/common/process.c: proc_pid_form_file, proc_signal_send", "src/common/listen.c: listen_set_opt"]}
{"id": "C133", "title": "A command signals only the process whose number is in the pid file", "statement": "Whatever the pid file holds, -stop and -reload access no memory outside of their buffer and signal no process other than the one whose number the file holds; no other arguments send a signal.", "quantifier": "every content of the file, every list of arguments", "why_tests_cant": "the file always holds a proper number in a test", "anchors": ["src/common/process.c: proc_pid_form_file, proc_signal_send", "src/main.c: option_parse"]}
{"id": "C134", "title": "The exit status tells whether a command or a start worked", "statement": "-stop and -reload end with status 0 exactly if they sent their signal; a start ends with status 0 exactly if the program runs.", "quantifier": "every content of the pid file, every argument, every outcome of every step of the start-up", "why_tests_cant": "each step of the start-up fails only under conditions a test does not produce", "anchors": ["src/main.c: option_parse, proc_daemon, main"]}
{"id": "C135", "title": "Printing JSON stays within its memory, whatever fails", "statement": "Whatever item is printed and whichever allocation fails, cJSON_Print, cJSON_PrintUnformatted, cJSON_PrintBuffered and cJSON_PrintPreallocated access no memory outside of their buffer and no bytes that were never written, and return either NULL (false) with nothing left behind or a C string.", "quantifier": "every item whose strings are C strings, every pattern of failing allocations, both kinds of allocation hooks, every first size or buffer of the caller", "why_tests_cant": "the place where the buffer grows depends on every byte printed before; tests print a few items into buffers that are large enough", "anchors": ["src/common/cJSON.c: ensure, update_offset, print_number, print_string_ptr, print_value, print_array, print_object, print, cJSON_PrintBuffered, cJSON_PrintPreallocated"]}
{"id": "C136", "title": "JSON that was printed is read back as the same value", "statement": "cJSON_Parse of what cJSON_Print, cJSON_PrintUnformatted, cJSON_PrintBuffered or cJSON_PrintPreallocated wrote gives the value that was printed, and printing works whenever there is memory.", "quantifier": "every value: any strings, any nesting, any number", "why_tests_cant": "escapes, nesting and buffer sizes combine without bound", "anchors": ["src/common/cJSON.c: print_value, print_string_ptr, print_number, print_array, print_object, parse_value"]}
{"id": "C137", "title": "cJSON_PrintPreallocated works exactly if its buffer is large enough", "statement": "cJSON_PrintPreallocated returns true exactly if the text and its NUL fit into the buffer of the caller.", "quantifier": "every value, every buffer size up to INT_MAX", "why_tests_cant": "tests use buffers that are far too small or far too large", "anchors": ["src/common/cJSON.c: cJSON_PrintPreallocated, ensure"]}
{"id": "C138", "title": "A number that was printed is read back as the same number", "statement": "Reading what print_number wrote gives the double that was printed.", "quantifier": "every finite double", "why_tests_cant": "2^64 doubles; the ones that differ look right in every test that compares with a tolerance", "anchors": ["src/common/cJSON.c: print_number, compare_double"]}
{"id": "C139", "title": "Minifying a JSON text stays within the text", "statement": "cJSON_Minify reads and writes no byte outside of the NUL-terminated text it is given, comes to an end, leaves a C string that is not longer, and does not touch what follows the text.", "quantifier": "every C string, JSON or not: unclosed strings and comments, backslashes anywhere", "why_tests_cant": "the text is rewritten in place by loops that skip and copy several bytes at a time; any combination of quotes, backslashes and comment marks can come at the end", "anchors": ["src/common/cJSON.c: cJSON_Minify, skip_oneline_comment, skip_multiline_comment, minify_string"]}
{"id": "C140", "title": "Minifying a JSON text removes white space and nothing else", "statement": "After cJSON_Minify a JSON text is the same text without the white space between its tokens; it has the same value, and cJSON_Parse reads it as that value. A text that is not JSON does not become JSON.", "quantifier": "every JSON text with any strings and nesting", "why_tests_cant": "whether a quote ends a string depends on all backslashes before it; tests have a few strings", "anchors": ["src/common/cJSON.c: cJSON_Minify, minify_string"]}
{"id": "C141", "title": "Arrays and objects built with the cJSON calls behave like sequences", "statement": "After any series of the calls that add, insert, detach, replace and delete items, asking for the size or for an item at a position gives what the same calls would have done to a sequence; no released item is used, no item is released twice and every walk along an array ends.", "quantifier": "every series of calls, any number of arrays nested in each other", "why_tests_cant": "the last item is kept in the prev of the first one; every call has its own cases for the first, last, only and middle item, and a wrong link shows up only calls later", "anchors": ["src/common/cJSON.c: add_item_to_array, cJSON_InsertItemInArray, cJSON_DetachItemViaPointer, cJSON_DetachItemFromArray, cJSON_ReplaceItemViaPointer, cJSON_ReplaceItemInArray, cJSON_Delete, cJSON_GetArraySize, cJSON_GetArrayItem"]}
{"id": "C142", "title": "cJSON_Compare tells whether two values are the same", "statement": "cJSON_Compare answers true exactly if the two items are the same JSON value: equal strings and numbers, the same items in arrays in the same order, the same members in objects in any order. It takes a time in proportion to the sizes.", "quantifier": "every two trees of items, letter case of names significant or not", "why_tests_cant": "wrong answers need special numbers, repeated names or deep nesting; a test compares two or three documents", "anchors": ["src/common/cJSON.c: cJSON_Compare, compare_double, get_object_item, case_insensitive_strcmp"]}
{"id": "C143", "title": "Lookups running at the same time do not disturb one another", "statement": "However the name lookups of several sessions are mixed, each session gets the address it would have got if the lookups had been made one after the other, each with its own datagrams, and the cache holds the same afterwards.", "quantifier": "every mixture of any number of lookups, datagrams, timers and passes over the cache", "why_tests_cant": "the number of mixtures is unbounded, and the cache changes between the question and the answer", "anchors": ["src/app/socks5.c: s5_cup_addr, s5_cup_dns_cb", "src/dns/dns.c: dns_alloc, dns_response_recv, dns_rec_add, dns_rec_find, dns_rec_chk"]}
{"id": "C144", "title": "A session is connected only to what its own client asked for", "statement": "However clients come, ask, leave and get answers from the name server, a connection for a client is opened only to the address that client asked for or that was found for the name it asked for, at the port it asked for; and the end or failure of one session's lookup ends no other session.", "quantifier": "every order of any number of clients, requests, answers, failures and departures", "why_tests_cant": "it takes a client that leaves at the wrong moment, a second one that is given the same memory, and a late answer", "anchors": ["src/app/socks5.c: s5_try_read, s5_cup_dns_cb, s5_cup_addr", "src/app/tls_tunnel_s.c: tls_ses_release_cdown, tls_ses_exp", "src/dns/dns.c: dns_alloc, dns_free, dns_cexp"]}
{"id": "C145", "title": "A TLS write that had to wait is repeated with the same bytes", "statement": "A write over TLS that had to wait is repeated with the same bytes at the same place, possibly followed by more, as TLS demands, before anything else is written; so a wait never breaks the connection, and the peer decrypts every byte once and in order: a beginning of what was to be sent, and all of it when the message is reported as sent or the session ends because its source has ended.", "quantifier": "every series of waits with any number of bytes already encrypted, every mixture of events in the relay, every chain of buffers", "why_tests_cant": "TLS libraries encrypt part of a write before they have to wait; the repeated call fails only if the buffer has moved or shrunk in between, which depends on the timing of both sides", "anchors": ["src/common/ssl.c: ssl_write, ssl_write_chain", "src/app/tls_tunnel_s.c: tls_tunnel_traffic_recv, tls_tunnel_traffic_send, tls_tunnel_traffic_reverse_recv, tls_tunnel_traffic_reverse_send"]}
{"id": "C146", "title": "Log records go to their log file and to standard output, and nowhere else", "statement": "Every record that is logged once the program has started is found exactly once, whole, in the log file of its kind and on standard output (nothing for a daemon), in the order of the writes, and never in a client's connection or any other file, whatever descriptors the program was started with, whatever is opened and closed afterwards and however many processes log.", "quantifier": "every set of descriptors the program is started with, every history of forks, opens, closes (also closes once too often), records and ends of processes, every result of write", "why_tests_cant": "records are written to descriptor 1 without asking what it is; what it is depends on how the program was started and on every open and close since", "anchors": ["src/common/log.c: log_init, log_end, log_write_stdout, log_write_file_main, log_write_file_access, log_print", "src/main.c: proc_daemon, proc_pid_create, main", "src/common/config.c: config_init"]}
{"id": "C147", "title": "Log files can be moved away", "statement": "When a log file is moved away and the program is made to reload, later records are found in the file that has the name of the log file then.", "quantifier": "every history of records, forks and moves", "why_tests_cant": "the file that is written and the file that has the name are the same in every short test", "anchors": ["src/common/log.c: log_init, log_write_file_main, log_write_file_access", "src/common/process.c: proc_master_run, proc_fork"]}
{"id": "C148", "title": "A session in which bytes move is not cut for being idle", "statement": "A relaying session is ended by its timer only if no byte was received from or sent to either side for ten seconds, and a session in which nothing happens for ten seconds is ended.", "quantifier": "every history of receives, sends, waits, events and clock values in both directions", "why_tests_cant": "each connection has its own timer and each of the four functions arms one of the two; whether a given traffic keeps both alive depends on waits of more than ten seconds", "anchors": ["src/app/tls_tunnel_s.c: tls_tunnel_traffic_recv, tls_tunnel_traffic_send, tls_tunnel_traffic_reverse_recv, tls_tunnel_traffic_reverse_send, tls_ses_exp, tls_tunnel_traffic_proc", "src/common/timer.c: tm_add, timer_expire"]}
{"id": "C149", "title": "A copy of a JSON item is equal and separate, or there is none", "statement": "cJSON_Duplicate returns a tree with the value of the item (or the item without its children), in no list, made of memory of its own except for names marked constant, and leaves the original as it was; or, if any allocation fails, it returns NULL and has released everything it had allocated. Deleting the original leaves the copy as it is, deleting the copy leaves memory as it was before, and no memory is used after its release, released twice or lost.", "quantifier": "every item with references, shared parts, constant names and any depth, every result of every allocation", "why_tests_cant": "an allocation can fail at each of the many places in a recursive function; memory that is shared by mistake shows only when one of the two trees has been deleted", "anchors": ["src/common/cJSON.c: cJSON_Duplicate, cJSON_Delete, cJSON_strdup, cJSON_New_Item"]}
{"id": "C150", "title": "Putting an item into a JSON object gives it away whole or changes nothing", "statement": "cJSON_AddItemToObject, cJSON_AddItemToObjectCS, cJSON_AddItemReferenceToObject, the cJSON_Add...ToObject calls and cJSON_ReplaceItemInObject (both forms) do one of two things: the object has the item as a member under the given name and owns it, with the old name and a replaced member released; or they answer false (NULL) and memory is as before. The name may be any text, also one that belongs to the item or the object. No memory is used after its release or lost.", "quantifier": "every object and item with any contents, every name, every result of every allocation, names compared with and without regard to case", "why_tests_cant": "whether the given name is a text of the item itself is an aliasing question that tests with literals never raise; memory that is lost when an allocation fails is invisible", "anchors": ["src/common/cJSON.c: add_item_to_object, add_item_to_array, create_reference, replace_item_in_object, cJSON_ReplaceItemViaPointer, get_object_item, cJSON_CreateString"]}
{"id": "C151", "title": "A lookup whose datagram is lost asks again, and every lookup ends", "statement": "A name lookup that hears nothing sends its query again before it gives up; a reply that comes in time decides it; and every lookup ends, by an answer or by its timer, within a time that does not depend on what the network does.", "quantifier": "every name, every sequence of results of sendto, of datagrams from anybody in any pieces, and of clock values", "why_tests_cant": "datagrams are rarely lost in tests; how often the timer can be put off depends on an adversary who sends pieces", "anchors": ["src/dns/dns.c: dns_request_packet, dns_request_send, dns_response_recv, dns_cexp, dns_alloc", "src/common/net_send.c: udp_sends, udp_recvs"]}
{"id": "C152", "title": "A port is served by the service configured for it, and conflicts are reported at start", "statement": "After a start that succeeds every connection to a port of the configuration file is handled by the service the file gives the port to, of the instance just started; if that is impossible because the port is taken, by another program, another instance or another entry of the file, the start fails and nothing changes.", "quantifier": "every configuration with at most eight ports, every set of sockets other programs listen with, every result of the socket calls, every connection", "why_tests_cant": "tests start one instance on free ports; who gets a connection when several sockets listen depends on a hash of the addresses", "anchors": ["src/common/listen.c: listen_set_opt, listen_start, listen_init", "src/common/net.c: net_socket_reuseport, net_socket_reuseaddr", "src/common/modules.c: modules_core_init"]}
{"id": "C153", "title": "As many workers run as the configuration says, and they can be stopped", "statement": "For every number of workers in the configuration file, either the start is refused or that many workers are started, each of them is a worker and nothing else, and when everybody is told to stop everybody ends.", "quantifier": "every 32-bit number of workers, every success or failure of mmap and fork, every series of signals to any of the processes", "why_tests_cant": "tests use a handful of workers; a child returns into the master's loops and leaves them only because of a number, and a run with hundreds of processes and all orders of signals cannot be tried", "anchors": ["src/common/process.c: process_init, proc_fork, proc_master_run, proc_worker_run, proc_signal_cb, proc_waitpid", "src/common/shm.c: sys_shm_alloc", "src/common/process.h: process_t"]}
{"id": "C154", "title": "Giving a JSON item a text, and building an array, changes that and nothing else", "statement": "cJSON_SetValuestring gives a string item the text and changes no other value; cJSON_CreateIntArray, cJSON_CreateFloatArray, cJSON_CreateDoubleArray and cJSON_CreateStringArray return an array of the elements in their order. If memory is refused they answer NULL and memory is as before. No memory is used after its release or lost, and the given text may be any text.", "quantifier": "every item, every text or part of a text wherever it is kept, every number of elements, every result of every allocation", "why_tests_cant": "that the text may be part of the item's own, or shared with a reference, is an aliasing question; tests do not fail the n-th allocation of a long array", "anchors": ["src/common/cJSON.c: cJSON_SetValuestring, cJSON_CreateIntArray, cJSON_CreateFloatArray, cJSON_CreateDoubleArray, cJSON_CreateStringArray, create_reference"]}
{"id": "C155", "title": "Taking a member out of a JSON object takes out that member whole", "statement": "cJSON_DetachItemFromObject returns the first member of the given name with everything it owns, in no list, and leaves the others in the object in their order; cJSON_DeleteItemFromObject releases exactly that. Without such a member nothing happens. The name may be the member's own.", "quantifier": "every object whose members have names of their own, wherever the member is, every name, names compared with and without regard to case", "why_tests_cant": "links forwards, backwards and from the first to the last member differ for every position; released and lost memory is invisible to tests", "anchors": ["src/common/cJSON.c: cJSON_DetachItemViaPointer, cJSON_DetachItemFromObject, cJSON_DetachItemFromObjectCaseSensitive, cJSON_DeleteItemFromObject, cJSON_DeleteItemFromObjectCaseSensitive, get_object_item, cJSON_Delete"]}
{"id": "C156", "title": "A web connection that is refused memory is closed, once, and leaves nothing behind", "statement": "Whenever an allocation for a connection of the web server is refused, that connection is closed, once, everything it had is released, no released memory is touched, and the process goes on.", "quantifier": "every sequence of requests on a connection, kept alive or not, with and without bodies, for files and for the API; every sequence of answers of the allocator; plain connections, and TLS connections whose shutdown ends at once or waits", "why_tests_cant": "no test can make the n-th allocation of a connection fail for every n and every history of the connection; released memory that is touched is invisible to a test", "anchors": ["src/app/webser.c: webser_start, webser_keepalive, web_release_c, webser_rsp, webser_rsp_hdrp, webser_rsp_payload_send, webser_transfer_to_tlstunnel", "src/http/http_req.c: web_req_alloc, web_req_free, web_req_payload", "src/common/net.c: net_free, net_free_direct", "src/common/meta.c: meta_alloc, meta_free"]}
{"id": "C157", "title": "Requests to the web server do not use up its memory", "statement": "However many requests the web server has answered, on kept and on closed connections, the memory pool can hand out as many blocks as before; so no number of requests makes the server fail.", "quantifier": "every number and order of requests that are answered one after the other, kept alive or not, with and without bodies, for files and for the API; every state of the pool they start from", "why_tests_cant": "the failure comes after a thousand requests or more and depends on everything that was in use before; the pool writes outside its memory silently", "anchors": ["src/app/webser.c: webser_start, webser_keepalive, web_release_c, webser_rsp, webser_rsp_hdrp, webser_rsp_payload_send", "src/http/http_req.c: web_req_alloc, web_req_free, web_req_payload", "src/common/mem.c: mem_pool_alloc, mem_pool_free", "src/common/meta.c: meta_alloc"]}
{"id": "C158", "title": "While one session transfers, the others are served too", "statement": "A session that always has bytes to pass on does not keep the worker from serving the other sessions: between two events of another session only a bounded number of calls is made for it.", "quantifier": "every pair of sessions of a worker, every sequence of results of recv and send, every sequence of events", "why_tests_cant": "needs a source and a sink that never pause; a test stops at some length and cannot tell a long wait from an endless one", "anchors": ["src/app/tls_tunnel_s.c: tls_tunnel_traffic_recv, tls_tunnel_traffic_send, tls_tunnel_traffic_reverse_recv, tls_tunnel_traffic_reverse_send", "src/common/event.c: ev_loop"]}
{"id": "C159", "title": "What is printed about the start appears once, first, and shows no key", "statement": "What the program prints at its start is on standard output exactly once and before the log records that follow, whatever standard output is, however many workers there are and however they end; and the authentication key of the configuration is not part of it.", "quantifier": "every configuration file, every amount the C library holds back, with and without sys_daemon, every history of records, forks and ends of processes", "why_tests_cant": "a test looks at one kind of output, usually a terminal, where nothing is held back; that a fork copies what is held back shows only when the workers end", "anchors": ["src/main.c: main, proc_daemon", "src/common/config.c: config_init", "src/common/macro.h: ahead_dbg", "src/common/process.c: proc_fork, proc_master_run, proc_worker_run", "src/common/log.c: log_write_stdout"]}
{"id": "C160", "title": "A request for a missing file leaves one line in the log that names it", "statement": "A request for a file that is not there or cannot be opened leaves exactly one record in the log: one line, with the path that was looked up, and nothing else of the program's memory; what a client sends cannot make up further lines.", "quantifier": "every request, every configured root and index, every state of the file system, every time and error number", "why_tests_cant": "the record is too long only for paths of some hundred bytes, and a path with line breaks in it is sent by no ordinary client", "anchors": ["src/app/webser.c: webser_req_file, webser_req_router", "src/common/log.c: log_print", "src/http/http_req.c: web_req_line"]}
{"id": "C161", "title": "Requests that name the same file get the same answer", "statement": "Two GET requests whose targets name the same path by RFC 3986 (the query is not part of the path, a percent sign and two digits stand for a byte, scheme and host may be given or not) are answered with the same status and the same file.", "quantifier": "every pair of such requests, every configuration and state of the file system", "why_tests_cant": "tests ask for plain paths; which other spellings name the same file is not visible in any single request", "anchors": ["src/app/webser.c: webser_req_file, webser_req_router, webser_api_find", "src/http/http_req.c: web_req_line"]}
{"id": "C162", "title": "The program turns to the servers named in its configuration", "statement": "Lookups go to port 53 of the address in s5_serv_gw (8.8.8.8 if there is none) and the client's tunnel goes to the address and port in s5_local_serv_ip and s5_local_serv_port; a text there that is not an address is reported.", "quantifier": "every configuration document within the size limits, every text in it", "why_tests_cant": "a test tries a few addresses; texts that libc reads as some other address go to hosts that no test looks at", "anchors": ["src/dns/dns.c: dns_get_serv, dns_alloc", "src/app/tls_tunnel_c.c: tls_tunnel_s_addr", "src/common/config.c: config_parse"]}
{"id": "C163", "title": "An answer is as long as it says, even if the file changes meanwhile", "statement": "If a file is changed between the moment its size is looked up and the moment it is read, the answer still has the announced length or the connection is closed before it; nothing of the file is taken for the next answer on the connection.", "quantifier": "every change of the file, every sequence of send and read results", "why_tests_cant": "a test would have to change the file in the short time between stat and read", "anchors": ["src/app/webser.c: webser_rsp_payload_send_ff, webser_req_file"]}
{"id": "C164", "title": "What a request carries is not taken for another request", "statement": "The body of a request is never answered as if it were a request of its own: for one request with its body the server gives at most one answer, whatever bytes the body holds and in whatever pieces it arrives, whether its length is given by Content-Length or it comes in chunks (Transfer-Encoding: chunked).", "quantifier": "every request with Content-Length or a chunked body, every content, every division into pieces, every table of handlers and every file system", "why_tests_cant": "tests send bodies that do not look like requests; an attacker chooses both the bytes and the pieces", "anchors": ["src/http/http_req.c: web_req_payload, web_req_header", "src/app/webser.c: webser_keepalive, webser_start"]}
{"id": "C165", "title": "A check that fails while an answer is prepared is recorded with its text", "statement": "Whenever one of the web server's checks fails while it prepares an answer, the text of that check and the number of the error are written to the log, and the process goes on; no record is made by undefined behaviour of the formatted print, although the texts of some checks contain conversions such as %s.", "quantifier": "every status, date, length, additional header and error number; answers with and without a payload; every sequence of answers of the allocator", "why_tests_cant": "the checks fail only when the memory pool refuses a block at a certain moment; that the harmful ones never fail depends on the lengths of all lines of the head", "anchors": ["src/common/macro.h: schk", "src/app/webser.c: webser_rsp, webser_rsp_hdrp", "src/common/log.c: log_format_text"]}
{"id": "C166", "title": "Every request gets an answer with a status", "statement": "The web server answers every well-formed request with a head that begins with HTTP/1.1 and a status: the file for GET and HEAD, otherwise a status that says why not (not found, method not supported, path refused). It does not simply close the connection.", "quantifier": "every request without a body that fits the buffers, whatever its method, path and headers; every file system and every fair configuration", "why_tests_cant": "tests send GET requests for existing files; methods are any words and paths any texts", "anchors": ["src/app/webser.c: webser_req_router, webser_req_proc, webser_rsp", "src/http/http_req.c: web_req_line"]}
{"id": "C167", "title": "Every finite number is printed as a JSON number and fits its buffer", "statement": "cJSON prints every finite number as a text of at most 25 bytes (its buffer on the stack has 26) that is a number in the grammar of RFC 8259 and stands for exactly the decimal that was chosen; so no print overruns the buffer and every JSON reader accepts the text; cJSON's own reader takes exactly that text, whatever follows it, and gets every int back.", "quantifier": "every int, every finite double of either sign, both precisions that are tried (15 and 17 digits)", "why_tests_cant": "there are 2^64 doubles; the longest texts and those next to a change of notation are a handful of them", "anchors": ["src/common/cJSON.c: print_number, parse_number"]}
{"id": "C168", "title": "Different JSON values are printed as different texts", "statement": "Two values that cJSON prints as the same text, formatted or not, are the same value, and one value has one text in each form; so printed texts can be compared instead of values.", "quantifier": "every two values of any nesting and size, any strings, any number; both forms and both kinds of locale", "why_tests_cant": "a pair of values that share a text has to be found among all pairs; strings with escapes and members with quotes in their names are the places to look", "anchors": ["src/common/cJSON.c: print_value, print_string_ptr, print_number, print_array, print_object"]}
