#!/usr/bin/env python3
"""Regenerates properties.jsonl from the table below (one tuple per property)."""
import json, os
P = []
def p(id, title, statement, quantifier, why, anchors):
    P.append(dict(id=id, title=title, statement=statement, quantifier=quantifier,
                  why_tests_cant=why, anchors=anchors))

p("C01", "CoAP/UDP message round trip",
  "Serialising any well-formed CoAP message for UDP gives the layout of RFC 7252, and parsing the bytes back yields the same type, code, message id, token, every option value and the payload. (Known exceptions, each with a witness: a message of code 0 that carries a token, and the OCF version option in front of a vendor content format, are serialised to bytes that do not parse back.)",
  "every header field value, token of 0..8 bytes, every combination and content of supported options, every payload",
  "the message space is unbounded in option contents and lengths; delta/length nibbles interact across options, tests sample a few packets",
  ["messaging/coap/coap.c: coap_oscore_serialize_message, coap_serialize_options, coap_udp_parse_message, coap_oscore_parse_options"])
p("C02", "CoAP over TCP framing round trip",
  "For every well-formed CoAP message sent over TCP the frame length computed by the receiver from the first bytes equals the number of bytes the sender produced, whatever follows in the stream, and parsing the frame yields the message that was sent. (Known exception, with a witness: an empty message with a token announces more bytes than are sent.)",
  "every message length (all four length encodings and their boundaries), every token length",
  "boundaries 13/269/65805 and all lengths between cannot be enumerated by tests together with every option layout",
  ["messaging/coap/coap.c: coap_tcp_compute_message_length, coap_tcp_parse_message_length, coap_tcp_get_packet_size, coap_tcp_parse_message"])
p("C03", "Received CoAP datagrams are parsed within their bounds",
  "Whatever bytes arrive in a datagram, decoding it as CoAP reads no byte outside the datagram.",
  "every byte string of every length, for the UDP and the TCP decoder",
  "an out-of-bounds read of one byte is silent in a test unless the exact malformed packet is guessed",
  ["messaging/coap/coap.c: coap_udp_parse_message, coap_tcp_parse_message, coap_oscore_parse_options"])
p("C04", "CoAP option header round trip",
  "The delta and length written in front of an option are exactly the delta and length recovered by a decoder, for all deltas and lengths representable in CoAP, and the number of bytes written equals the number predicted before writing.",
  "every pair (delta, length) up to 65804 and every following byte sequence",
  "4 billion pairs; the three encodings per field cross at two boundaries",
  ["messaging/coap/coap.c: coap_set_option_header, coap_option_nibble, coap_oscore_parse_options"])
p("C05", "Block option round trip",
  "The block number, more flag and block size given to the block option setter are recovered by the peer, and the byte offset the peer computes is block number times block size. (Known exceptions, each with a witness: the setter accepts block sizes that are not powers of two and sends the next smaller one; the reader accepts four-byte values, whose offset overflows.)",
  "every block number below 2^20, both flags, every power-of-two block size from 16 to 2048, and every option value of up to three bytes for the decoder",
  "2^20 x 2 x 7 combinations plus all arbitrary option values; the decoder works modulo 2^32",
  ["messaging/coap/options.c: coap_options_set_block1, coap_options_set_block2, coap_options_get_block1, coap_options_get_block2", "messaging/coap/options.c: coap_options_block_encode, coap_options_block_decode"])
p("C06", "URI path and query survive the wire",
  "The path and the query string set on a message are the ones the receiver hands to the application, apart from leading slashes (path) and question marks (query), and the segments on the wire are the ones between the separators. (Known exceptions, each with a witness: a trailing slash and a leading ampersand are lost, an empty segment becomes part of its neighbour, and splitting reads one byte behind a string that ends in a separator.)",
  "every path without trailing slash and every query without ampersand at either end, empty segments included; segments: strings without empty segments",
  "strings are unbounded and the sender splits while the receiver joins in place",
  ["messaging/coap/coap.c: coap_serialize_array_option, coap_merge_multi_option", "messaging/coap/options.c: coap_options_set_uri_path, coap_options_set_uri_query"])
p("C07", "Retransmission policy of confirmable messages",
  "A confirmable message is transmitted at most a fixed number of times, each wait is exactly twice the previous one, the first wait lies between the response timeout and 1.5 times that, and an acknowledgement from the peer stops retransmission; a message from another peer never does.",
  "every sequence of timer expirations, acknowledgements and resets, every random draw, any number of concurrent transactions",
  "schedules of timers and acknowledgements are unbounded and time-dependent",
  ["messaging/coap/transactions.c: coap_send_transaction, coap_check_transactions, coap_get_transaction_by_mid", "messaging/coap/engine.c: coap_process_inbound_message"])
p("C08", "Duplicate requests are executed at most once, fresh requests are executed",
  "A request whose message id equals that of one of the last 25 requests received for the same device is not executed again, and a request that is not a duplicate is always executed.",
  "every history of received requests from any number of clients",
  "depends on the whole history of 25 ring-buffer slots and on collisions between clients",
  ["messaging/coap/engine.c: check_if_duplicate, oc_coap_check_if_duplicate, history"])
p("C09", "Block-wise reassembly delivers exactly the sent payload",
  "If a transfer of consecutive blocks is accepted up to its last block, the payload handed to the application is the concatenation of the blocks, whatever duplicated, reordered or foreign blocks arrived in between; the buffer is never exceeded.",
  "every payload, block size, and every interleaving of in-order, duplicate and out-of-order blocks",
  "histories of blocks are unbounded",
  ["api/oc_blockwise.c: oc_blockwise_handle_block", "messaging/coap/engine.c"])
p("C10", "Block-wise sending covers the payload exactly once",
  "Requesting blocks 0,1,2,... of a payload yields chunks whose concatenation is the payload; whatever blocks are requested in whatever order, each block sent is the slice asked for, has the more flag exactly when there is more, is not empty and lies within the payload; a client sending a payload follows each block by the next until the payload is covered. (Known exceptions, each with a witness: the dispatcher reads outside of the payload for an unaligned offset; a skipped or repeated last block is not answered.)",
  "every payload below 4 GiB, every block size, every sequence of requests",
  "all payload/offset combinations including exact multiples of the block size",
  ["api/oc_blockwise.c: oc_blockwise_dispatch_block"])
p("C11", "Sequence number encoding of OSCORE",
  "Every sender sequence number below 2^40 is recovered by the peer from the partial IV that was sent, and different sequence numbers give different partial IVs.",
  "all 2^40 sequence numbers",
  "2^40 values",
  ["messaging/coap/oscore.c: oscore_store_piv, oscore_read_piv"])
p("C12", "OSCORE nonces are never equal for different messages",
  "Two messages protected under the same common IV with different (sender id, sequence number) pairs use different AEAD nonces.",
  "every pair of ids of at most 7 bytes, every pair of partial IVs of at most 5 bytes, every common IV",
  "injectivity over a product of unbounded data",
  ["security/oc_oscore_crypto.c: oc_oscore_AEAD_nonce"])
p("C13", "OSCORE replay protection",
  "A request protected with OSCORE is accepted at most once, and a fresh authentic request is accepted.",
  "every sequence of partial IVs received, including replays of arbitrarily old ones and forged ones",
  "the window is a ring of 32 values whose behaviour depends on the whole history",
  ["security/oc_oscore_engine.c: check_if_replayed_request"])
p("C14", "OSCORE sequence numbers are not reused after a crash",
  "No sender sequence number is used twice for the same key, whatever the point at which the device loses power between sending and persisting its state.",
  "every interleaving of unicast sends, multicast sends, delayed persists and power losses",
  "crash points between any two steps of unbounded histories",
  ["security/oc_oscore_engine.c: oc_oscore_send_message, oc_oscore_send_multicast_message", "security/oc_oscore_context.c: oc_oscore_add_context", "security/oc_cred.c"])
p("C15", "Decoding the OSCORE option stays in bounds",
  "Whatever bytes a peer sends as the OSCORE option, decoding writes only inside the destination fields and reads only the option.",
  "every byte string of up to 255 bytes",
  "exhaustive over byte strings",
  ["messaging/coap/oscore.c: coap_parse_oscore_option"])
p("C16", "Base64 round trip and output bounds",
  "Decoding the base64 encoding of any byte string gives the byte string back; the encoder writes exactly 4*ceil(n/3) characters and refuses a smaller output buffer; the decoder rejects every string with a character outside the alphabet.",
  "every byte string and every buffer size",
  "unbounded strings, three padding cases",
  ["api/oc_base64.c: oc_base64_encode, oc_base64_decode"])
p("C17", "UUID text conversion",
  "Parsing the text of a UUID gives the UUID back, and a freshly generated UUID is a well-formed random UUID (version 4, RFC 4122 variant).",
  "all 2^128 UUIDs and all random draws",
  "2^128 values",
  ["api/oc_uuid.c: oc_uuid_to_str_v1, oc_str_to_uuid_v1, oc_gen_uuid"])
p("C18", "Hex conversion round trip",
  "Converting bytes to a hex string and back yields the bytes; every hex text of either letter case and of even or odd length is read, nothing but hex text is, and insufficient buffers are refused. (Known exception, with a witness: a text with other characters is not refused, bytes of an uninitialised variable are stored.)",
  "every byte string and buffer size",
  "unbounded strings",
  ["api/oc_helpers.c: oc_conv_byte_array_to_hex_string, oc_conv_hex_string_to_byte_array"])
p("C19", "Query parameter lookup",
  "For a query string built from key=value pairs joined by '&', looking a key up returns the value of its first occurrence in any letter case, iterating visits all pairs in order, and iterating by key finds exactly the pairs with that key in order. (Known exceptions, each with a witness: the position reported behind a pair without value is wrong, and with it the end condition of the documented loop, which reports a value twice.)",
  "every list of pairs with non-empty keys",
  "unbounded strings and key sets, prefix-related keys",
  ["api/oc_query.c: oc_ri_query_nth_key_value, oc_ri_get_query_value, oc_ri_query_exists"])
p("C20", "Linked lists behave as sequences",
  "Add, push, pop, chop, remove, insert and length on lists have the effect of the corresponding sequence operations, for any history over any number of lists in which only elements that are not linked anywhere are added. (Adding an element that is already in the list is a misuse the code does not survive: it closes the list into a loop, for every list and element.)",
  "every history of operations on any number of lists sharing a heap",
  "unbounded histories with pointer aliasing",
  ["util/oc_list.c"])
p("C21", "Fixed pool allocator",
  "A block handed out by the pool allocator is never handed out again before it is freed, allocation succeeds exactly while fewer than the capacity are in use, the number of free blocks is capacity minus blocks in use, new blocks read as zeros and used blocks keep their contents; wrong and repeated frees change nothing. Re-initialising a pool stays inside its memory exactly when blocks are at least pointer-sized.",
  "every history of allocations and frees, any capacity",
  "unbounded histories",
  ["util/oc_memb.c"])
p("C22", "Compacting string allocator preserves contents",
  "After any sequence of allocations, writes and frees in the static-memory string allocator, every live handle still reads back its own last written contents, live regions do not overlap, and an allocation succeeds when the free space suffices.",
  "every history of operations and sizes",
  "compaction moves all later regions; unbounded histories",
  ["util/oc_mmem.c: oc_mmem_alloc, oc_mmem_free"])
p("C23", "Event queue is FIFO and loses nothing it accepted",
  "Events accepted by the event queue leave it in posting order, each exactly once unless dropped for its process; dropping removes exactly the matching events; a post is refused exactly when the fixed queue holds ten events, and never in the growing build; the ring buffer is never accessed out of bounds.",
  "every interleaving of posts and deliveries",
  "ring-buffer indices wrap and the buffer grows mid-stream; unbounded histories",
  ["util/oc_process.c: oc_process_post, do_event, oc_process_run"])
p("C24", "Event timers",
  "For timers armed from within a process: a run of the timer process posts one event for each armed timer whose deadline has passed and for no other, as far as the event queue has room, and asks to be run again exactly if some did not fit; a stopped timer posts nothing more; the reported next expiration is never later than the earliest deadline, and equal to it as long as no process exited. (Known exceptions: after a process exit the report may be too early; a timer set twice from outside any process closes the list into a loop.)",
  "every set of timers, every clock advance, every history of set/stop/poll",
  "unbounded timer sets and schedules",
  ["util/oc_etimer.c", "util/oc_timer.c"])
p("C25", "Delayed callbacks",
  "A delayed callback runs no earlier than requested, once per expiry, is due again one interval after it returned continue and is gone after it returned done; after it has been removed its handler is not called again; removing one callback does not affect others; handlers may add and remove callbacks, themselves included by the plain remove call. (Known exceptions: a handler that removes all registrations of its own function stays registered if another one matches after it; an on_delete function given for a self-removal may also be called for the next finished callback.)",
  "every history of add, remove (also from inside handlers) and time advance",
  "re-entrancy: handlers add and remove callbacks during the poll",
  ["api/oc_event_callback.c"])
p("C26", "Access decision soundness",
  "A request on a resource is decided for every device state, and it is allowed exactly for the reasons the security specification names: the resource was opened for the time before ownership, the session of the onboarding tool, a resource readable by anyone, the resource owner, the owner role, or an ACE whose subject describes the requester, whose resource list covers the target and whose permission bits cover the method; and not while barred (application resources outside normal operation or without encryption, security resources without encryption once owned). Adding an ACE never revokes access, removing one never grants it, and an ACE that does not match has no influence. (Known exception: a requester that has not authenticated has the nil UUID as identity and passes for the owner of resources without owner.)",
  "every ACL, requester identity, set of credentials and role certificates, resource, method, onboarding state",
  "unbounded ACLs; the decision combines ten conditions",
  ["security/oc_acl_util.c: oc_sec_check_acl, oc_sec_check_acl_by_permissions, oc_ace_get_permission, eval_access", "security/oc_ace.c: oc_sec_ace_find_subject, oc_sec_ace_find_resource"])
p("C27", "ACE identifiers are unique and updates touch only what they name",
  "After any history of ACL updates, deletions, resets and reloads, with any payloads, no two ACEs share an identifier; in normal operation no request changes the list; an update leaves alone every ACE that it names neither by identifier nor by equal subject, tag and permissions; a deletion by identifier removes that ACE only. (Known exceptions: a rejected update is not undone, a resource without href and wildcard deletes the ACE it should extend, an update for one authority extends the ACE for all authorities, a missing subject is stored as the nil UUID, identifier 0 cannot be deleted.)",
  "every history of updates and deletes, including malformed ones",
  "unbounded histories with random ids and mid-way failures",
  ["security/oc_acl.c: oc_sec_decode_acl, oc_sec_acl_update_res, acl_resource_delete", "security/oc_ace.c"])
p("C28", "Onboarding state transitions",
  "The device onboarding state moves only along the specified transitions, each step being an accepted update or a reset; whenever the device is in normal operation it has an owner, an identity and a credential for the owner of each security resource; a reset, once it runs, makes the device as new; a rejected update changes nothing but software update actions already started by its target mode. (Known exceptions: a pending reset does not stop further transitions and is lost by a restart, the outcome depends on the order of the properties, names are compared by two characters, failed key generation leaves the reset half done, and an application reset cut short by a restart returns to normal operation without credentials.)",
  "every history of pstat updates, resets and completion events",
  "history-dependent state machine with delayed steps",
  ["security/oc_pstat.c: valid_transition, oc_pstat_handle_state, oc_sec_decode_pstat"])
p("C29", "Ownership data is writable only when permitted and atomically",
  "An update of the ownership resource is accepted exactly when every property in it is writable in the current state over the current session; an accepted update sets exactly the named properties to the last values given, a rejected one changes nothing. (Known exceptions: the values themselves are not validated - non-UUID text, methods beyond 32 bits, owned without an owner.)",
  "every update payload, every device state, with or without a secure owner connection",
  "product of payload shapes and states",
  ["security/oc_doxm.c: oc_sec_decode_doxm, oc_doxm_validate / doxm decoding"])
p("C30", "Credential identifiers are unique and updates do not lose credentials",
  "After any history of credential updates no two credentials of a device, and no two role credentials of a client, share an identifier. An update is refused outside provisioning and reset states, keeps every credential it does not name, and when accepted the credential is there as asked for; presenting roles keeps all credentials; a deletion removes exactly the named one, clearing exactly what the filter names. A request is taken for a known credential only if type, usage, subject, tag and data agree; OSCORE credentials of an accepted update are complete and never set a sequence number; of the reserved roles only the owner's is presented. No freed credential is used when the identifiers of an update differ. (Known exceptions: a refused replacement has already removed the credential, a list is applied up to the refused element, a certificate known under another identifier removes the named credential, two elements with one identifier use a freed credential, presenting roles can set the resource owner and owner marks.)",
  "every history of additions and removals, all failure points",
  "unbounded histories, failure in the middle of parsing",
  ["security/oc_cred.c: oc_sec_add_new_cred, oc_sec_get_cred_by_credid, oc_sec_remove_cred_by_credid"])
p("C31", "Private credential data never leaves the device",
  "The response to a read of the credential resource is the same whatever the private data of the stored credentials is.",
  "every set of credentials, every private value",
  "a non-interference property quantifying over pairs of states",
  ["security/oc_cred.c: oc_sec_encode_cred, cred_encode"])
p("C32", "Observer bookkeeping",
  "A client has at most one registration per resource path and interface; registering replaces only the same relation; disconnection, cancellation, a reset, a change of the device state and deletion of the resource end exactly the registrations concerned, the latter two telling each client; below 256 registrations the observer count of a resource equals their number, no registration refers to a deleted resource, and a notification goes exactly once to each observer concerned when nothing fails. (Known exceptions: with 256 registrations the 8-bit count is zero, so nobody is notified and deletion leaves dangling registrations; cancellation matches the token alone and can end the registration of another resource; a reset of message id 0 ends a registration never notified; a client is told it is registered when no memory was available; an error notification does not end the registration.)",
  "every history of registrations, cancellations, resets and resource deletions",
  "unbounded histories",
  ["messaging/coap/observe.c", "api/oc_ri.c: ri_handle_observation, ri_delete_resource"])
p("C33", "Observe sequence numbers stay fresh",
  "Notifications carry sequence values between 2 and 2^24-1, never the register and deregister values, only for registered clients, and each is fresher in the sense of RFC 7641 than the earlier ones of the same client and resource, across counter wrap and re-registration, as long as fewer than 2^23-3 notifications lie between (its own within one registration, all of the device's otherwise). (Known exception: the registration response carries 0, so once the counter has passed 2^23 a client takes the first notification for an old one.)",
  "every number of notifications, including counter wrap",
  "wrap after 2^24 notifications",
  ["messaging/coap/observe.c", "messaging/coap/observe_internal.h"])
p("C34", "Delayed responses reach every waiting client once",
  "When a resource defers its responses, the response with a valid code yields exactly one message for each client still waiting: a response to its own address with its own token, or a notification for a notification; nobody else is answered, nobody waits afterwards, and the response buffer is never used after it was freed; for clients that do not use the same token at the same time. (Known exceptions: of two clients with the same token only the second is answered; an unknown response code answers nobody and leaves a freed buffer in use; refusing the first request for want of memory loses a buffer.)",
  "every history of accepted and refused requests and responses",
  "collisions of tokens chosen independently by clients; allocation failures",
  ["messaging/coap/separate.c: coap_separate_accept, coap_separate_clear", "api/oc_server_api.c: oc_send_separate_response, separate_response_clear"])
p("C35", "ETags identify the content of a resource",
  "Each new or changed resource gets an ETag greater than every ETag shown before, one ETag of a resource never stands for two contents, a request answered with Valid really has the current content, and a restart after the ETags were stored keeps them; all this across restarts whose clock is past the last ETag or which restore the greatest ETag, up to the 64-bit range. (Known exceptions: after a restart with the clock set back, a resource whose content changed while the device was off, or any resource of a device that is not yet in normal operation, can get an ETag used before for other content.)",
  "every history of clock readings, random draws and restarts from stored values",
  "depends on clock steps backwards and on restarts",
  ["api/oc_etag.c: oc_etag_get, oc_etag_load_from_storage, oc_etag_dump", "api/oc_ri.c: ri_invoke_coap_set_etag"])
p("C36", "Endpoint comparison is an equivalence",
  "Endpoint comparison used to attribute messages to peers says exactly whether two endpoints have the same transport, device, address and port and no two different sessions. It is symmetric, reflexive on endpoints of the Internet protocol, and transitive when the endpoint in the middle names its session or one of the outer ones leaves it open. (Known exceptions: a Bluetooth endpoint is not equal to itself, an endpoint with an open session equals those of two different sessions, and equal link-local addresses on different links are one peer.)",
  "all triples of endpoints",
  "triples over addresses, flags and session ids",
  ["api/oc_endpoint.c: oc_endpoint_compare"])
p("C37", "Endpoint text conversion",
  "The text of an endpoint always fits the buffer provided, is written whole or not at all, and reads as an endpoint with the same scheme, address and port. Every IPv4 text and every IPv6 text in the forms 1 and 2 of RFC 4291, with or without port and path, is read as that endpoint, and the path of a URI is found. (Known exceptions: IPv6 addresses with an embedded IPv4 address are printed in a form that is rejected; malformed numbers and addresses are accepted; a path with a colon is rejected when no port is given.)",
  "every IPv4 and IPv6 address, port and scheme",
  "2^128 addresses, zero-compression choices",
  ["api/oc_endpoint.c: oc_endpoint_to_string, oc_string_to_endpoint", "port/common/oc_ip.c"])
p("C38", "Client requests and their handlers",
  "If the application keeps a short list of rules (nothing else between oc_init_post/put and oc_do_post/put; oc_do_* follows an oc_init_*; the handler of a lost ping does not close that session; a failing oc_stop_observe is not called by the handler of that very request), then no freed client record is ever used, however responses, timers, cancellations and calls from inside handlers are interleaved; every timer belongs to a live record; the handler of a one-shot request or ping is called at most once if the server adds no Observe option; every sent request other than an observation or ping is released by its lifetime timer. A handler told of cancellation or timeout is never called again; a request ends only for a listed reason; closing a session tells exactly the waiting unicast requests concerned, once each, even when handlers send new requests; a response reaches the first request with its token only. (Known exceptions, each with a witness: OC_STOP_DISCOVERY and oc_stop_multicast do not stop the calls; an unparsable answer ends the request with no call; an Observe option from the server repeats a one-shot handler; breaking one of the rules leaks, double-frees or dereferences NULL; an old OSCORE notification makes the record uncancellable; stopped observations and oddly answered pings can stay for ever.)",
  "every history of requests, responses, timers, cancellations and re-entrant calls from handlers, any number of records, with and without OSCORE and TCP",
  "interleavings of replies, retransmission timeouts and handler re-entrancy",
  ["api/client/oc_client_cb.c", "api/oc_client_api.c", "api/oc_ping.c", "messaging/coap/engine.c:893-928"])
p("C39", "Checksum of stored ETags",
  "The checksum is the ECMA-182 polynomial remainder of the data; the checksum of concatenated data equals the checksum computed incrementally; any change confined to 64 consecutive bits of data of the same length is detected. (Leading zero bytes are not.)",
  "every byte string, split point and byte change",
  "unbounded strings",
  ["util/oc_crc.c: oc_crc64"])
p("C40", "Printing a payload as JSON respects the buffer and is JSON",
  "Printing a payload into a buffer of any size never changes a byte behind it and leaves a terminated string. Without indentation it returns the length of the full text and leaves a prefix of it; with indentation the same holds when the text fits or no buffer is given. In both modes the value returned is below the size of the buffer exactly when the whole text fits. The text is a JSON document whose members are the payload's attributes. (Known exceptions, each with a witness: with indentation and a buffer that is too small the value returned is smaller than the length of the text and the buffer does not hold a prefix; strings are not escaped; arrays without item type, arrays of no objects, and arrays of objects that start with an empty one.)",
  "every payload tree, every buffer size, plain and indented printing, every text of a double",
  "unbounded trees times all buffer sizes",
  ["api/oc_rep_to_json.c"])
p("C41", "JSON payloads: encoder, growing buffer, decoder, round trip",
  "Any sequence of encoder calls yields exactly the text of those calls when it is not longer than what the buffer may hold, and an error otherwise, whatever the initial size and the growth of the buffer; no write leaves the buffer and it never exceeds its maximum. A payload of the supported types is encoded as its JSON text; the decoder reads every JSON text of such a payload, with any white space, back into the same attributes and values, so that the round trip is the identity; on no input does the decoder write outside of its arrays, fail an assertion or recurse without bound. An object without attributes, and nothing else, becomes an empty payload. (Known exceptions, each with a witness: strings are not escaped; empty strings of arrays are dropped; empty arrays come back as null and doubles as integers; integers below -2^52-1 are refused although 2^53 is encoded; the decoder accepts texts that are not JSON, dereferences NULL for an unreadable value in an array of objects and leaks on text behind an object.)",
  "every sequence of calls, every payload tree of the supported value types, every buffer size and maximum, every input text",
  "unbounded trees, strings, call sequences and buffer sizes",
  ["api/oc_rep_encode_json.c", "api/oc_rep_encode.c", "include/oc_rep.h:284-1175", "api/oc_rep_decode_json.c", "util/jsmn/jsmn.c"])
p("C42", "Decoding of payloads",
  "A well-formed CBOR payload whose values the attribute types can express (numbers of 64 bits, arrays not empty and of one type, array strings of at most 127 bytes) is decoded to exactly the attributes it represents, so that what one side writes with the setters the other side reads back; every other such payload is rejected. (Known exceptions: an array mixing certain types calls the CBOR library outside its contract instead of being rejected; an invalid property in an object of a root array makes the decoder follow a null pointer; empty arrays and short floats become null, numbers beyond 64 bits wrap, an array inside a root array is read as an object.)",
  "every CBOR data item",
  "unboundedly nested items of all type combinations",
  ["api/oc_rep_decode.c: oc_rep_parse_cbor, oc_parse_rep_value, rep_parse_array, rep_parse_root_array", "include/oc_rep.h: oc_rep_set_*"])
p("C43", "Server address list selection",
  "After every history of adding, removing, selecting, stepping and clearing, the addresses in the list are distinct, non-empty and shorter than the limit, exactly one of them is selected unless the list is empty; adding appends, removing the selected address selects its cyclic successor, stepping on as many times as there are addresses visits each of them once in order and comes back, and the change callback runs exactly when the selected address changes, seeing the new one. (Known exception: reinitialising the list drops the selection without a call and calls even if the same address is selected again.)",
  "every history of add, remove, select and clear",
  "unbounded histories",
  ["util/oc_endpoint_address.c: oc_endpoint_addresses_add, oc_endpoint_addresses_remove, oc_endpoint_addresses_select, oc_endpoint_addresses_select_next, oc_endpoint_addresses_clear"])
p("C44", "Payload attribute lookup",
  "Looking up an attribute of a payload by name and type returns the value of the first attribute with that name and type and fails exactly if there is none; empty names and names of 4096 bytes or more are never found. An attribute written by one side is found with its value by the other side.",
  "every payload and key",
  "unbounded payloads",
  ["api/oc_rep.c: oc_rep_get_by_type_and_key, oc_rep_get_value, oc_rep_get_*"])
p("C45", "Dynamic strings and buffers",
  "Writing formatted text piecewise into a bounded buffer never exceeds it, reports overflow exactly from the first write on that does not fit, and leaves the longest terminated prefix of the whole text; without a buffer the writes report the length.",
  "every sequence of writes and buffer sizes",
  "unbounded sequences",
  ["util/oc_buffer.c: oc_buffer_write"])
p("C46", "Serialising a CoAP message respects the output buffer",
  "A message with a code other than 0 is serialised exactly when it fits the buffer given, with the same bytes whatever the buffer, and never more bytes are written than the buffer has. (Known exception, with a witness: buffer size 0 is taken as unlimited.)",
  "every message and every buffer size other than 0",
  "all sizes around every boundary for all option combinations",
  ["messaging/coap/coap.c: coap_oscore_serialize_message, coap_check_header_size, coap_calculate_header_size"])
p("C47", "The access control list survives a restart",
  "An access control list built by any history, written to storage and read back at the next start is the same list with the same owner, so that every request is decided as before. (Known exceptions: a resource entry that restricts an href by a wildcard loses the wildcard and so widens access, an empty tag is lost.)",
  "every history of updates, every onboarding state at the restart",
  "unbounded histories; equality of the decision for all requests",
  ["security/oc_acl.c: oc_sec_encode_acl, oc_sec_decode_acl", "security/oc_ace.c: oc_sec_encode_ace, oc_sec_decode_ace"])
p("C48", "Ownership and provisioning status survive a restart",
  "What is written to storage reads back as the same ownership resource and provisioning status; a restart keeps owner, identity, state, operational flag and credentials of an owned device, and makes a device nobody owns as new.",
  "every reachable device state, every typed value of the two resources",
  "unbounded histories before the restart",
  ["security/oc_doxm.c: oc_sec_encode_doxm, oc_sec_decode_doxm", "security/oc_pstat.c: oc_sec_encode_pstat, oc_sec_decode_pstat", "security/oc_store.c", "api/oc_main.c: main_load_resources"])
p("C49", "Credentials survive a restart",
  "Credentials written to storage are read back as the same credentials in the same order, with the same resource owner, owner marks and OSCORE contexts; the sender sequence number of a context continues 160 further. (Known exceptions: a subject starting with byte 0x2a becomes the wildcard; an OSCORE context with only one identifier, or a role certificate before its trust anchor, ends the reading so that the rest and the resource owner are lost.)",
  "every reachable credential list with complete contexts and certificates that verify with the anchors before them",
  "unbounded histories before the restart",
  ["security/oc_cred.c: oc_sec_encode_cred, oc_sec_decode_cred", "security/oc_store.c: oc_sec_load_cred", "security/oc_oscore_context.c: oc_oscore_add_context"])
p("C50", "Regular confirmable notifications",
  "Among any five successive notifications to a datagram client of one registration at least one is confirmable, across counter wrap, so that a vanished client is noticed.",
  "every history, every counter value including wrap",
  "wrap of a 24-bit counter, histories",
  ["messaging/coap/observe.c: coap_prepare_notification, coap_send_notification_internal"])
p("C51", "Incremental discovery",
  "A client that sends the batch ETags it knows with an incremental discovery request gets every resource it may access that was added or changed since, or everything; what it does not get it already has. (Known exceptions: removed resources and resources that became accessible meanwhile are not noticed; the answer can even be Valid.)",
  "every history between the two requests, every list of known ETags",
  "unbounded histories",
  ["api/oc_discovery.c: oc_discovery_get_batch_etag, discovery_find_incremental_updates_etag, discovery_process_batch_request"])
p("C52", "Messages are cut from a TCP stream exactly at frame boundaries",
  "A stream of acceptable frames (CoAP over TCP frames, or TLS records on a secured connection), each of at least six bytes and no longer than the receive buffer, is delivered as exactly these messages, in order, nothing lost, merged or repeated, however the network cuts the stream into readings, provided the first reading of each message brings six bytes; messages this stack serialises are such frames. For any stream and any cutting, no byte is written behind the buffer and the delivered messages are consecutive pieces of the stream, each either one frame by its own header or at most six bytes long. Sending puts a prefix of the message on the stream, the whole message unless a call of send fails. (Known exceptions, each with a witness: a first reading that is shorter than the length field closes the connection; a frame of fewer than six bytes swallows the start of the next frame and is delivered with options nobody sent; an interrupted first reading runs into an assertion or delivers an empty message; a send that fails half way is reported as success.)",
  "all sequences of frames, all streams, all sequences of recv and send results, plain and secured connections",
  "The kernel decides how many bytes each recv returns; the number of ways to cut a stream is exponential in its length and tests on a local socket see only one of them",
  ["port/linux/tcpsession.c:428-524", "port/linux/tcpsession.c:938-966", "api/oc_tcp.c:99-223", "messaging/coap/coap.c:1510-1526"])
p("C53", "Messages are cut from decrypted TLS data exactly at frame boundaries",
  "CoAP frames of at least seven bytes that arrive over TLS on TCP, with the bytes cut into TLS records in any way, are passed to the CoAP engine unchanged and in order; bytes not yet passed on are kept for later, the peer is not dropped, nothing is written behind the buffer; all frames are passed on when no record holds bytes of two frames. (Known exceptions, each with a witness: a frame of exactly six bytes is never passed on and blocks everything behind it; a shorter frame waits for further bytes and then makes the library write the next data behind the buffer; the second of two frames in one record waits until another record arrives.)",
  "all sequences of frames, all ways to cut them into records, with and without dynamically sized buffers",
  "The record boundaries are chosen by the peer's TLS library; tests use one message per record and messages longer than six bytes",
  ["security/oc_tls.c:2799-2867", "security/oc_tls.c:3083-3085", "api/oc_message.c:230-247"])
p("C54", "OSCORE messages are recognised by their option",
  "A well-formed CoAP message, over UDP or TCP, is treated as an OSCORE message exactly when it carries the OSCORE option (number 9), wherever the option stands and whatever extended deltas and lengths precede it, and whatever bytes follow the message in the buffer. For any non-empty message, well-formed or not, the check ends with an answer and reads at most four bytes behind the message. (Known exception with a witness: without four readable bytes behind the message, a malformed message makes the check read outside the buffer.)",
  "all well-formed messages with any list of options; all byte strings for the second part",
  "The decision depends on all encodings of option deltas and lengths; tests try a handful of messages",
  ["messaging/coap/oscore.c:433-509", "api/oc_tcp.c:168-193"])
p("C55", "The cloud configuration survives a restart",
  "If the configuration of a cloud (servers with their ids, the selected server, provider, user, tokens, status, cps, token lifetime) is written to storage and read back after a restart, all settings are the same, the servers and ids are the same, and the same server is selected. Whatever the file contains, the server list that results is a proper one; a file that is missing or refused leaves the default configuration. (Known exceptions, each with a witness: the order in which the servers are tried changes when the selected one is not the first; an emptied server list comes back as the default server, and so does a list whose selected server has the UUID written '*'; a status or cps of 256 or more in the file fails an assertion.)",
  "every reachable server list with UUID ids, every value of the settings, every file content",
  "The space of lists, ids and files is infinite and the reload runs through three list operations per server.",
  ["api/cloud/oc_cloud_store.c:77-386", "api/cloud/oc_cloud_endpoints.c:50-125", "util/oc_endpoint_address.c:502-574"])
p("C56", "Cloud registration tries every server and then gives up",
  "The retry timeouts an application sets are the ones it gets back, and refused ones change nothing. For timeouts of a second or more: the wait before an attempt lies between half the timeout and the timeout; the registration comes to an end after at most one attempt per timeout and server; when no server answers, every server of the list is tried once per timeout in list order starting at the selected one before the manager gives up; no attempt goes to a server that is not in the list. (Known exceptions, each with a witness: a server that cannot be contacted at all ends the registration although others are left; accepted timeouts below one second trip an assertion or divide by zero; an accepted empty list of timeouts makes the manager reconnect for ever; when the attempts at one server are used up while a TCP session with it is up, the session is closed and the next server is not tried.)",
  "every list of timeouts, every server list of up to 255 servers, every sequence of answers and random numbers",
  "Termination over all answer sequences and exhaustiveness over all lists are not observable from finite runs.",
  ["api/cloud/oc_cloud_schedule.c:35-172", "api/cloud/oc_cloud_manager.c:112-172", "api/cloud/oc_cloud_manager.c:334-442", "api/cloud/oc_cloud_context.c:321-336"])
p("C57", "A redirection replaces the selected server",
  "When an answer of the cloud carries a non-empty redirect URI, that server is selected afterwards, the server that was selected is removed and all others stay; a server that was not in the list is appended with the id of the one it replaces. If the server is already selected nothing changes. If it can be neither found nor stored the list stays as it was. Without a redirect URI nothing changes.",
  "every reachable server list and every answer",
  "The new entry inherits data from an entry that is removed in the same call; the effect depends on the whole list.",
  ["api/cloud/oc_cloud_manager.c:222-278"])
p("C58", "Tokens are taken over as a whole and refreshed in time",
  "An answer to the registration or refresh request is accepted exactly when it carries all of the tokens (and the user id on registration), each non-empty, and the lifetime; otherwise the configuration stays as it was, never with a part of the tokens replaced. An accepted token is asked for anew in the second half of its lifetime, at least ten seconds before it expires if it lives for more than twenty seconds and ten minutes before if it lives for more than an hour. (Known exceptions, each with a witness: a token that lives for up to twenty seconds is asked for only when it has expired; a lifetime of 9223372036854776 seconds overflows when converted to milliseconds.)",
  "every answer payload, every configuration, every lifetime",
  "Atomicity over arbitrary payloads with missing, duplicate or mistyped members cannot be enumerated.",
  ["api/cloud/oc_cloud_manager.c:170-220", "api/cloud/oc_cloud_manager.c:563-608", "api/cloud/oc_cloud_manager.c:698-733"])
p("C59", "A request reaches exactly the handler it is entitled to, once",
  "For every registry a history of additions and deletions can produce and every request with a proper path and query: the handler of resource r is called with interface i if and only if r serves the path on the addressed device, the multicast device filter lets the request through, i is the interface named by the first \"if\" of the query (else the default one), r has i and i permits the method, the content format is supported, the method is implemented, access control permits the request, the payload parses, a response buffer exists, and the request is not a GET with the current ETag or a refused batch GET. It is then called once and no other handler is. Nothing undefined happens. (Known exceptions, each with a witness: a multicast query with \"di\" but no \"=\" subtracts a null pointer; an interface name nobody knows is treated as absent and the default interface is used.)",
  "all registries reachable by any sequence of operations, all requests with a well-formed query, all applications",
  "Tests send a few requests to a few resources; the combinations of lookup, filter, interface, method, format, access and ETag are far too many, and \"no other handler runs\" quantifies over everything.",
  ["api/oc_ri.c:371-396", "api/oc_ri.c:737-765", "api/oc_ri.c:1298-1436", "api/oc_ri.c:1493-1625", "api/oc_ri.c:1742-1900"])
p("C60", "Response codes follow from the request and the handler, and multicast draws no errors",
  "A request that is not admitted is refused with exactly one code and has no effect: 4.03 for a wrong interface, else 4.01 for access control, else 4.00 for an unsupported format, else 4.05 for a missing handler; 4.04 when nothing serves the path. An unreadable payload gives 4.00, or 4.13 with Size1 when it ends early. A GET with the current ETag gives 2.03 with that ETag. Otherwise the code set by the handler is sent (with the ETag on 2.05 and 2.03), 0 resets, OC_IGNORE sends nothing, a separate response answers later. A multicast request never draws a code of 4.00 or above. The twenty status values and their CoAP codes correspond one to one.",
  "all requests, all registries, all handler behaviours, all status values",
  "A test fixes one error at a time; which of several errors wins, and silence over multicast for every handler behaviour, need every combination.",
  ["api/oc_ri.c:156-205", "api/oc_ri.c:311-353", "api/oc_ri.c:1122-1226", "api/oc_ri.c:1438-1512", "api/oc_ri.c:1638-1690", "messaging/coap/engine.c:778-838"])
p("C61", "The registry of resources keeps URIs unique and finds what serves a path",
  "After any history of additions, delayed deletions and deletions: no two registered resources or collections of a device share a URI with one leading slash, and none has the URI of a core resource. An addition succeeds exactly if the resource has a handler, has a period if it is periodic, is not registered yet and its URI is not taken (by an application resource, a core resource, a collection or a resource waiting to be deleted); a refused one changes nothing. A path finds exactly the resource that serves it. A resource waiting to be deleted is unreachable at once while its URI stays taken, other lookups are unchanged, and deletion frees the URI. (Known exceptions, each with a witness: a URI with two leading slashes can be registered twice; a path with extra leading slashes finds a collection but not a resource.)",
  "all histories, all URIs, all devices",
  "Uniqueness is an invariant over unbounded histories; tests register a handful of resources.",
  ["api/oc_ri.c:239-308", "api/oc_ri.c:449-474", "api/oc_ri.c:548-671", "api/oc_collection.c:255-338", "api/oc_resource.c:88-100", "api/oc_resource.c:370-387", "api/oc_core_res.c:670-801"])
p("C62", "Requests create observers and change notifications exactly when they should",
  "A client becomes an observer if and only if it sends GET with Observe 0 for an observable resource, the request is admitted and answered well (2.03, a code below 4.00, or separately), and the observer can be set up. A response carries Observe 0 only in that case. Observers are told of a change if and only if a POST or PUT reached the handler of a resource that is not a collection and was answered with a code below 4.00; through the startup interfaces they are sent the defaults in its place. (Known exception with a witness: when the observer cannot be allocated, the response still carries Observe 0.)",
  "all requests, all registries, all handler behaviours, all allocation outcomes",
  "The absence of spurious observers and notifications quantifies over every failed request.",
  ["api/oc_ri.c:895-1030", "api/oc_ri.c:1122-1226", "api/oc_ri.c:1742-1900"])
p("C63", "A response has the message type and context of its request",
  "A confirmable request is answered in an acknowledgement with its message id; any other request by a message with a fresh id, confirmable exactly for path \"oic/res\". Over TCP a message without block options is answered from its own context whatever was received before it. (Known exception with a witness: a TCP message with a block option is answered from the context of the last message without one, and from a null response if there was none.)",
  "all requests and all sequences of TCP messages",
  "The static receive context couples a message to those before it; tests send messages one at a time after a proper one.",
  ["messaging/coap/engine.c:246-279", "messaging/coap/engine.c:1112-1215"])
p("C64", "RFC 3339 texts and time stamps convert both ways without loss",
  "timestamp_parse accepts exactly the RFC 3339 texts of the years 0001 to 9999 (date and time separated by T, t or a space; 0 to 9 digits of fraction; zone Z, z or ±hh:mm; no leap second :60) and returns the instant and the offset the text denotes; everything it returns is valid. timestamp_valid holds exactly for the stamps whose local time is in those years. A valid stamp is formatted, if text and terminator fit the buffer, as a text that parses back to exactly that stamp, offset included; with a given precision the remaining digits are cut off; an invalid stamp or precision or a buffer that is too small gives 0.",
  "all byte strings, all time stamps, all buffer sizes and precisions",
  "The proof covers every date of the 9999 years (by a step over a 400 year cycle and periodicity), all fractions and offsets; tests try a list of texts.",
  ["api/c-timestamp/timestamp_parse.c:34-252", "api/c-timestamp/timestamp_valid.c:33-44", "api/c-timestamp/timestamp_format.c:41-246"])
p("C65", "Time stamps are ordered by instant and have the fields of the calendar",
  "timestamp_compare orders valid stamps by the instant they denote, whatever their offsets. timestamp_to_tm_utc/local give the year, month and day of the Gregorian calendar (days counted one by one from 1970-01-01), the weekday, the day of the year, and the time of day of that instant in UTC or in the stamp's own offset.",
  "all valid time stamps",
  "The calendar is defined by counting days; agreement for every day of ten thousand years is beyond examples.",
  ["api/c-timestamp/timestamp_compare.c:33-44", "api/c-timestamp/timestamp_tm.c:40-90"])
p("C66", "The clock writes its time as RFC 3339 text and reads it back",
  "For a clock of hz ticks per second (hz a divisor of 10^9), oc_clock_encode_time_rfc3339 writes any time up to the end of the year 9999 as the UTC text of that instant, and oc_clock_parse_time_rfc3339 reads it back tick for tick. Any accepted text from 1970 on gives the number of whole ticks since 1970-01-01T00:00:00Z, the offset taken into account; other texts are refused. (Known exception, with a witness: a text before 1970 is accepted and gives a huge time, because the negative count is converted to an unsigned one.)",
  "all clock resolutions dividing 10^9, all times, all texts",
  "All times and texts are quantified over; rounding errors would show only at particular ticks.",
  ["api/oc_clock.c:36-78"])
p("C67", "Links of collections stay in order and do not dangle",
  "The links of every collection are ordered by the length of the URI and then by its characters after any history of creating, linking, unlinking and deleting; a link is added or removed without touching the others; oc_get_link_by_uri gives the first link with the URI (leading slashes aside). Under the rules that URIs are unique on a device, a collection links only resources of its device, each at most once, and a collection is deleted when no other collection links it, deleting a resource removes exactly the links to it from every collection and no collection ever holds a link to a freed resource. (Known exceptions, each with a witness: two links to one resource in a collection, a link from a collection of another device, two resources with one URI on two devices linked in one collection, and a deleted collection that another one links leave links to freed memory.)",
  "all histories of link, unlink, create and delete operations; all URIs",
  "The order and the absence of dangling links are invariants over every history of operations; tests build one or two small collections.",
  ["api/oc_collection.c:118-141", "api/oc_collection.c:178-308", "api/oc_collection.c:603-629", "api/oc_ri.c:549-625", "api/oc_link.c:59-101"])
p("C68", "A resource created through a collection gets a free URI",
  "The URI given to a resource created through the create interface is the URI of the collection, a slash and the smallest number from 1 on that is not in use in the collection, it fits the buffer of 64 bytes, and only for collections with a URI of 53 bytes or more a random URI is made instead; this for collections whose links have distinct URIs and in which every link of that form has the number written without sign, blank or leading zero. (Known exceptions, each with a witness: a link numbered 0, a number with a leading zero, or a number linked twice makes the server choose a URI in use.)",
  "all collections reachable by operations, any number of links",
  "The single pass over the links relies on the order of URIs coinciding with that of numbers; tests try a handful of indexes.",
  ["api/oc_resource_factory.c:44-168", "api/oc_resource_factory.c:170-215"])
p("C69", "The filter by resource type and the lists of links",
  "A resource passes the filter of a query exactly if the query has no non-empty rt value or one of its rt values is one of the types of the resource, wherever the values stand in the query; the link list and the baseline representation of a collection show exactly the links that pass, in order, and call no handler. (Known exception, with a witness: an update of the properties of a collection through its baseline interface that the application accepted is answered with 4.00.)",
  "all well-formed queries, all resources and collections",
  "Queries have any number of keys in any order, with and without values; tests use one rt value.",
  ["api/oc_core_res.c:810-837", "api/oc_collection.c:671-790", "api/oc_query.c:278-308"])
p("C70", "Batch requests reach the right links and respect access control",
  "In a batch request no handler runs, and no linked collection is updated, on a resource on which the origin may not use the method, through any depth of linked collections. A batch GET or DELETE calls each concerned link once in order and answers success exactly if one succeeded and none failed; a batch POST or PUT with entries of one href and one representation calls exactly the links with that href, with that representation, entry by entry; an entry that names no resource ends the request as a failure, and nothing after it is done. Requests end when linked collections do not link back. (Known exceptions, each with a witness: collections that link each other recurse without end; an entry without representation reuses that of the entry before; attribute names are not looked at; only the last entry decides about success; a failure inside a linked collection is answered as success.)",
  "all collections, requests, payloads, access rules and application answers; any nesting",
  "Access control through nested collections is a statement over every graph of links; tests use one collection with two links.",
  ["api/oc_collection.c:793-1090"])
p("C71", "Discovery lists exactly the discoverable resources with their secured endpoints",
  "A GET of /oic/res answers with one link for each core resource announced for the device, each resource of the application and each collection of the device that is discoverable and has a resource type asked for, and with no other; core resources are listed once. A link states the device id, path, non-empty types, names of the public interfaces, the discoverable, observable and pushable bits, and exactly those endpoints of the device that match the interface and address family of the request; a resource marked as secure, and each security resource once the device is owned or being owned, is announced at secured endpoints only, unless marked as accessible during ownership transfer. Baseline adds the domain id and name exactly when the domain is not private.",
  "all sets of resources, endpoints, flags, states of ownership, queries and origins of requests",
  "Which of any number of resources and endpoints appear depends on all their flags and on the request together; tests look for some expected resource in an answer.",
  ["api/oc_discovery.c:86-403", "api/oc_discovery.c:1074-1208", "api/oc_core_res.c:162-209", "api/oc_core_res.c:577-595"])
p("C72", "Discovery requests for others are not answered",
  "A request for /oic/res naming a security domain is answered only by a device that does not hide its domain and is in it, whatever the case of the digits. When something is found the answer is 2.05 with the links. When nothing is found a unicast request gets 4.00 and a multicast request gets no answer; the same holds for interfaces that /oic/res does not support. (Known exception, with a witness: with the baseline interface nothing found is answered with 2.03, also to multicast.)",
  "all devices, domains, queries, interfaces and origins",
  "Silence to a group request cannot be told from loss by a test; the claim is over all queries.",
  ["api/oc_discovery.c:405-427", "api/oc_discovery.c:1046-1208"])
p("C73", "A client learns exactly what a server announces",
  "For a device whose resources have types and public interfaces, whose texts fit and whose endpoints are IPv6 or IPv4 addresses, the payload of a discovery answer read by oc_discovery_process_payload leads to one call of the handler per listed resource with a usable endpoint, in order, with the device id, path, types, interfaces and property bits of the resource and exactly its announced endpoints that can be used from where the answer came, with their transport, address and port; calls end when the handler says so. (Known exceptions, each with a witness: a resource without public interface is reported with the interfaces of the link before; the last call may announce more.)",
  "all devices, requests with the interfaces ll and baseline, addresses of the answer and handlers",
  "The agreement of two independent pieces of code on all devices is a statement over all payloads the server can produce.",
  ["api/oc_discovery.c:86-403", "api/oc_discovery.c:1074-1208", "api/oc_discovery.c:1335-1527"])
p("C74", "A client handles discovery answers of any server",
  "For any answer that is an array of links, directly or in an object with an array named links, whose links have anchor, path, types, interfaces and endpoints in a sensible order, whatever else they contain, the handler is called for each link with endpoints, with what the link says: the last path, types and interfaces, and the endpoints up to one that cannot be reached in each object. An array of objects never leads to undefined behaviour when each anchor is a text of at least six bytes. (Known exceptions, each with a witness: an object at the root with a number, or a shorter anchor, is read outside memory; a link lacking attributes is reported with those of the link before; an array of texts after the interfaces replaces them.)",
  "all CBOR payloads of this shape, resolvers, addresses and handlers",
  "Answers come from devices of other makers; tests use the answers of this implementation.",
  ["api/oc_discovery.c:1335-1527", "include/oc_rep.h:1195-1203"])
p("C75", "Each resource added for the cloud has exactly one link",
  "After any sequence of oc_cloud_add_resource, oc_cloud_delete_resource, status changes, hourly callbacks, oc_cloud_publish_resources, answers and resets, the links to publish and the published links together hold each resource that was added and not deleted since exactly once, and no other resource; links queued for removal hold no resource. No step leads to undefined behaviour or an assertion if the identifier of the device is the text of a UUID and the header of a request may have at least 123 bytes. (Known exception, with a witness: publishing when no link exists and none can be allocated.)",
  "all sequences of operations, resources, answers, allocation and sending results",
  "A test runs a few sequences; a resource lost or published twice shows only after certain orders of calls and answers.",
  ["api/cloud/oc_cloud_rd.c:181-212", "api/cloud/oc_cloud_rd.c:214-230", "api/cloud/oc_cloud_rd.c:288-367", "api/cloud/rd_client.c:121-152"])
p("C76", "Publish requests and their answers",
  "A publish request is sent exactly when a new resource is added, when the device logs in with links to publish, hourly while the time to live is limited, and by oc_cloud_publish_resources, if the device is in normal operation and logged in; it lists the links to publish in order with URI, types, interfaces, instance and policy (without the periodic and secure bits), or /oic/p and /oic/d if there are none. An answer moves exactly the links it names by URI to the published ones, with the instance it gives; other links stay, and any other answer changes nothing.",
  "all reachable states, operations, answers",
  "The handler walks two lists and an answer of any length and order; tests use one answer.",
  ["api/cloud/oc_cloud_rd.c:115-179", "api/cloud/oc_cloud_rd.c:288-310", "api/cloud/oc_cloud_rd.c:369-382", "api/cloud/rd_client.c:44-152"])
p("C77", "Unpublish requests take the queue from the front, as much as fits",
  "The instance of a deleted published resource is put at the end of the queue. A request is sent when such a resource is deleted, after login, after the answer to the request before, and by oc_cloud_publish_resources; its query names the longest part at the front of the queue with which the CoAP header does not exceed its maximum, at least one instance, and exactly these leave the queue. (Known exception, with a witness: with a header maximum that has no room for one instance the request names none, which unpublishes everything.)",
  "all reachable states, operations, instance numbers of 64 bits, UDP and TCP, header maxima of at least 123 bytes",
  "The boundary depends on the digits of the numbers, option headers and framing; a test tries a few lengths.",
  ["api/cloud/oc_cloud_rd.c:234-286", "api/cloud/oc_cloud_rd.c:331-367", "api/cloud/rd_client.c:154-314", "messaging/coap/coap.c:1282-1328"])
p("C78", "The cloud comes to have exactly the resources of the application",
  "If each request is answered before the next operation, then at all times each link taken for published is in the cloud, and whatever else the cloud has of the device is queued for removal; requests and answers come to an end; after a login with working transport the cloud has exactly the resources added and not deleted, and this stays so while requests get through. (Known exceptions, each with a witness: a resource deleted and added again under its URI before the removal was sent is lost in the cloud; a resource deleted before the answer to its publication, or after oc_cloud_publish_resources was called while not logged in, stays in the cloud; publishing nothing adds /oic/p and /oic/d.)",
  "all sessions of allowed operations, all assignments of instances to URIs without collision between resources present",
  "Agreement of two parties after arbitrary histories of offline changes cannot be enumerated by tests.",
  ["api/cloud/oc_cloud_rd.c:115-382", "api/cloud/rd_client.c:121-314"])
p("C79", "The auditable event list keeps the latest events that fit",
  "The space accounted for the auditable events is the sum of their sizes and never above the limit. An entry that passes the filters of category and priority and fits is logged as the last event; of the others only the oldest are dropped, and only as many as needed. Any other entry is refused and changes nothing. So after any sequence of entries the list holds the latest suffix of the entries logged that fits. (Known exceptions, each with a witness: an entry refused for lack of memory has dropped older events; in a build with static memory the accounted size is stale after a restart.)",
  "all sequences of entries, filters, limits and sizes of messages",
  "Which events are dropped depends on the sizes of all entries logged before; tests log a handful of entries of one size.",
  ["security/oc_ael.c:143-210", "security/oc_ael.c:393-509"])
p("C80", "Auditable events survive a restart",
  "Every change of the list of auditable events - an entry, an update of the filters, a return to the defaults - is written to the storage as the list then is. After a restart, a list of entries with at most 256 items of at most 127 bytes has the same filters, limit and unit, and the events that pass the filters, in the same order, each saying the same. (Known exceptions, each with a witness: events logged before the filters were narrowed are lost; an item of 128 bytes makes the stored list unreadable and logging is off after the restart; 257 items are accepted and overflow an array on the stack when read back.)",
  "all histories of entries, updates, resets and restarts",
  "That whatever was logged can be read back is a statement over all entries and histories; tests dump one list.",
  ["security/oc_ael.c:212-391", "security/oc_store.c:442-501"])
p("C81", "The resource of auditable events tells what is logged and lets only filters change",
  "A GET of /oic/sec/ael tells the filters, the limit, the space used and every event in order, with all it says and with its time as an RFC 3339 time stamp. A POST is refused while the device is ready for normal operation; otherwise it changes just the filters it names, and never the events or the limit. (Known exceptions, each with a witness: the value 256 of a filter is taken as 0 and switches logging off; the space used is told in the unit of the first device.)",
  "all lists of events, payloads, interfaces and states",
  "The answer has to be right for every list of events; tests look at one.",
  ["security/oc_ael.c:163-391"])
p("C82", "A denied request is logged with who asked what",
  "A request that access control denies is logged with the address of the origin, its id if it is authenticated, the resource, the method, the state of the device, and the names of its roles up to 78 bytes, for addresses and URIs below 80 bytes; such an entry survives a restart. A message that cannot be parsed is logged with its first 42 bytes in hexadecimal. (Known exceptions, each with a witness: a URI of 80 bytes runs into the next line; a URI of 401 bytes overflows a buffer on the stack.)",
  "all addresses, peers, roles, URIs, methods, states and messages",
  "Lines are built in fixed buffers from text chosen by the origin; tests use short text.",
  ["api/oc_ri.c:766-805", "messaging/coap/engine.c:166-190", "security/oc_audit.c"])
p("C83", "The security domain is set only while the device is set up, told as it is, and kept over a restart",
  "An update of the security domain that names at least one of its properties, the identifier only during ownership transfer and with at least 36 characters, name and privacy only in ownership transfer, provisioning or soft reset, is answered as changed: each property takes the last value given for it, the others stay, the result is stored and nothing else of the device changes. Any other update is answered as a bad request and changes nothing. A request tells identifier, name and privacy. Whatever updates, resets and restarts happened before, an owned device has the same security domain after a restart; a factory reset, giving up ownership, and a restart of a device without owner, forget it. A device that takes ownership of itself has the domain it made up, also after a restart. (Known exceptions, each with a witness: the identifier 2a000000-0000-0000-0000-000000000000 is stored as an asterisk and is lost at a restart together with the name; text of 36 characters that is no identifier is answered as changed.)",
  "all states of the device, all requests (any list of properties of any type, repeated names included), all histories of operations from the first start",
  "Which of the last values wins in which of the four states, and what a restart reads back from what was encoded, depends on the whole request and the whole history; a test tries one order.",
  ["security/oc_sdi.c:75-305", "security/oc_store.c:503-541", "security/oc_security.c:108-150", "api/oc_main.c:284-340"])
p("C84", "The security profile changes only outside of normal operation, to supported profiles, and survives a restart",
  "In normal operation every update of the security profile is refused without effect. In the other states an update with no other properties, with known profiles only and with a current profile among those supported after it, is answered as changed; the profiles supported are exactly those listed last, what is not given stays, the result is stored and nothing else changes. Any other update is answered as a bad request and leaves the current profile and the stored profile. A request tells the current profile and exactly the supported ones. An accepted update of an owned device survives a restart in the same state if the current profile is supported, a profile preset by the application is the current one, is supported beside the earlier ones and becomes that of the manufacturer, and a reset sets the profile of the manufacturer. (Known exceptions, each with a witness: a refused update may have changed the supported profiles; an update may leave a current profile that is not supported, and this is not read back; a device restarted in normal operation loses its profile, also in the storage; a preset profile is overwritten by the default at the first start.)",
  "all states of the device, all requests (any list of properties of any type), all presets of the manufacturer",
  "The supported profiles are a bit mask built from text; the checks depend on the order of the passes over the request, and the loss at a restart shows only in one state.",
  ["security/oc_sp.c:46-359", "security/oc_store.c:123-160", "security/oc_pstat.c:279-369", "api/oc_main.c:284-340"])
p("C85", "The synchronised time runs on from where it was set, also over a restart",
  "After the application or a client has set the time (/x.plgd.dev/time), plgd_time tells at every later reading of the device's clock exactly the time set plus what has passed since, and plgd_time_last_synced_time the time set, whatever else happens (status changes, requests of any kind that do not set the time, failed attempts) until it is set again; the status is in-sync, and the function that sets the system time was called once with that time. After a restart, also a second one, it runs on from the time last set, with the status in-sync-from-storage. Before it is first set, and after it is set to zero, there is no time, also after a restart. Without a reading of the clock nothing is set. (Known exception, with a witness: setting it to zero calls the function that sets the system time with the largest number of ticks.)",
  "all frequencies of the clock that divide 10^9, all times and readings, all sequences of the other operations in between",
  "The elapsed time is an unsigned difference added to a stored time; that no sequence of other operations shifts it needs an invariant, and that the stored text gives back the same tick needs the round trip of all texts.",
  ["api/plgd/plgd_time.c:99-241", "api/plgd/plgd_time.c:452-532", "include/plgd/plgd_time.h:75-145", "api/oc_main.c:300-307"])
p("C86", "The time is told exactly, its synchronisation only over secured connections, and is fetched as told",
  "Over a secured connection the resource of the time tells the text of the present time, the text of the time of the last synchronisation, each exact to the tick, and the status. Over an open connection nothing but the present time and the two common properties rt and if is told, in every state. Without a time its text is empty. A request that names no time is refused and changes nothing. A client that fetches the time from another device learns exactly the ticks that device has; a failed request or an answer without a time is reported as a failure. (Known exception, with a witness: a time before 1970 is answered with an error but has been taken over, with a time in the far future.)",
  "all states of the device, all requests, all readings of the clock, times up to the year 9999",
  "Text of every tick of every frequency has to be exact and to be read back exactly; that a property is never told over an open connection is a statement on all states.",
  ["api/plgd/plgd_time.c:300-481", "api/plgd/plgd_time.c:534-592", "api/plgd/plgd_time.c:704-748"])
p("C87", "A software update is accepted only when it is in order, and done when it is due, also over a restart",
  "A request to the software update resource is accepted exactly when every property of it may be set by a client and has a proper value, it names an update time that is none, now or not past, and a package URL that the application finds valid (an empty one is accepted for an action when one is held already). One that is not is answered NOT_ACCEPTABLE and changes nothing. An accepted one takes over what it names and nothing else, does nothing at once, and is answered with what GET tells. When the update time has come the application is made to do the action asked for, with the package URL of the request, once, and not before; with no time or no action nothing is done, whatever was planned before. After restarts the data are the same and the action is done when due by the clock after the last start, at once if that is past. (Known exceptions, each with a witness: an empty package URL replaces the one held instead of keeping it; after a restart of a device that was never given a package URL an empty one is accepted without validation; a time before 1970 is accepted as one in the far future; setting the clock does not move a planned action.)",
  "all states of the device, all requests, all functions of the application, all sequences of time passing, clock changes, reads, validations and refused requests, any number of restarts",
  "That the action comes once and only when due is a statement on all schedules of the event loop and all interleaved requests; that the stored update survives any number of restarts needs the round trip of all times and texts.",
  ["api/oc_swupdate.c:153-337", "api/oc_swupdate.c:440-794", "api/oc_swupdate.c:932-980", "include/oc_swupdate.h:42-200"])
p("C88", "The progress of a software update is told, leads on only after success, and is kept",
  "GET tells the package URL, version, signature, the names of action and state, the result and the times exactly, each once. Asked to check for a version, the application is made to check, after it reports a new version to download, after it reports the download to upgrade, with the package URL of the request, each once and only after success; the mode of provisioning goes through the modes of the steps and back. A failure or the end stops everything, also an action still planned. What was reported is the same after restarts once the event loop has stored it, and the step reached is done again.",
  "all states of the device, all notifications with all results, all quiet operations in between, any number of restarts",
  "The steps are started from notifications, timers and the boot; that none of the interleavings starts a step twice, or one after a failure, is a statement on all executions.",
  ["api/oc_swupdate.c:239-312", "api/oc_swupdate.c:796-930", "api/oc_swupdate.c:1007-1129"])
p("C89", "An update can be validated without taking it",
  "oc_swupdate_validate_update changes nothing and says of every request exactly whether a client's POST of it would be accepted, whatever the function for errors does. A function that always goes on is told exactly the faults of the request: of every property in its order (only readable, bad value, unknown), or, if there are none, of the update time and the package URL. A function that stops is told the first of them. It is told nothing exactly when the request is accepted.",
  "all requests, all states, all functions for errors",
  "The function for errors decides after each report whether the decoding goes on; that the verdict does not depend on it, and that it agrees with the handler of POST, is a statement on all functions and requests.",
  ["api/oc_swupdate.c:485-794", "include/oc_swupdate.h:130-200"])
p("C90", "A role counts only for the session that proved it, and only as long as that session lasts",
  "Whatever sessions and devices do, a role that counts for a session was asserted by a request of that same session to its device since it was opened: with a role certificate that names the client of the session and has the key of the session's own certificate, which the trust anchors of the device vouched for at that time, and the role is the one in the certificate and not a reserved one. The end of the session, its request to delete all roles and the reset of its device leave no role, also when the address of the session is used again by another. What other sessions, other devices and requests without a session do, leaves the roles of a session as they are. (Known exceptions, each with a witness: of a session without a certificate, as one with a pre-shared key, the key is not asked; a certificate with a key longer than that of the session makes the comparison of the keys read memory before the latter, and such executions are outside the claim.)",
  "all sequences of sessions opened and closed with addresses used again, role requests, deletions, access checks, changes of credentials and resets, on any number of devices",
  "A role that leaks from one session to another, or outlives its session at a reused address, shows only in particular interleavings; the claim is about all of them.",
  ["security/oc_roles.c:114-289", "security/oc_roles.c:341-400", "security/oc_cred.c:380-450", "security/oc_cred.c:484-817", "security/oc_tls.c:468-530", "security/oc_pstat.c:298-318"])
p("C91", "A session sees, deletes and loses exactly its own roles",
  "The credential ids of the roles of a session are different from each other and none is the invalid one. A role certificate that the session is verified for and the trust anchors vouch for is accepted, and its role counts. GET tells a session exactly its own roles, in order, and a request without a session none. DELETE with the id of a role of the session takes away exactly that one; with any other id, even of a role of another session, and without a session, it is refused and changes nothing. When access is checked, the roles whose certificate no longer validates are gone for good (up to the first valid role of the owner), without a change in what the session is permitted. (Known exceptions, each with a witness: the usage a role was posted with is not told; a role posted with a negative id cannot be deleted by its id.)",
  "all reachable states of sessions and roles, all requests, all outcomes of the validation of certificates",
  "That ids stay unique and that the lists of the sessions stay apart is an invariant over all sequences of requests.",
  ["security/oc_roles.c:147-234", "security/oc_roles.c:275-400", "security/oc_cred.c:96-119", "security/oc_cred.c:167-175", "security/oc_acl_util.c:316-339"])
p("C92", "No received message is lost, repeated or left waiting on its way to the event loop",
  "Whatever the interleaving of the network threads, the event loop and the dropping of messages of closed connections: exactly the messages with a valid header that were read while the network process ran are put in the list; each of them is posted to the event loop exactly once or dropped, in the order in which they were put there, which for each device is the order in which they were read; whenever the threads are not in the middle of handing over a message and the event loop is idle, waiting messages have their process marked and a poll requested, so that the event loop delivers them all after boundedly many steps of its own. A poll requested by any process stays requested until the event loop sees it. (Known exception, with a witness: a thread that saw the process running just before it ended still adds its message, which then nobody takes or frees.)",
  "all interleavings of any number of network threads with the event loop, polls by other processes and drops, at the granularity of single accesses to shared memory",
  "A lost wake-up needs a particular interleaving of three accesses in two threads; tests run a few schedules and cannot enumerate them.",
  ["api/oc_network_events.c:79-173", "api/oc_network_events.c:188-233", "util/oc_process.c:269-284", "util/oc_process.c:345-357", "util/oc_process.c:493-504"])
p("C93", "A device with a full queue stops reading, and is woken when there is room again",
  "No device ever has more than 32 messages waiting in the list. When the event loop takes the list, it wakes exactly the devices whose queue was full, each once, and looking for them ends. A thread that has stopped reading has a full queue, or its wake-up is in the pipe or about to be written by the event loop or by the one who dropped messages; so when the event loop has nothing to do and no wake-up is under way, no thread is left waiting.",
  "all interleavings of the network threads of any number of devices with the event loop and drops; all lists of waiting messages",
  "A device that stops reading for ever does so only after a particular interleaving at the moment its queue is full.",
  ["api/oc_network_events.c:48-77", "api/oc_network_events.c:188-233", "api/oc_network_events.c:259-268", "port/linux/ipadapter.c:681-695", "port/linux/ipadapter.c:972-1021", "port/linux/ipadapter.c:1053-1120", "port/linux/ipadapter.c:1667-1679"])
p("C94", "A message is freed exactly once, when its last reference is given up, and not touched afterwards",
  "Whatever the interleaving of threads that take, pass on, use and give up references to a message: no increment or decrement of its count is lost, the message is not freed while there is a reference, it is freed at most once, once the last reference is given up it has been freed or exactly one thread is about to do so, and neither a thread with a reference nor the one that frees it ever touches it after it was freed. A thread left alone ends its operation with the second attempt at the latest. (Known exception, with a witness: with more than 255 references at a time the 8-bit count wraps, and the message is freed while it is in use.)",
  "all interleavings of any number of threads, at the granularity of single atomic accesses, with at most 255 references at a time",
  "A double free or a use after free needs two threads to meet inside the compare-and-swap loop.",
  ["api/oc_message.c:59-101", "api/oc_message.c:181-232", "util/oc_atomic.h:36-76"])
p("C95", "Notifications never follow a pointer to a deleted resource",
  "Whatever resources and collections are added, linked, unlinked, changed and deleted, whatever clients observe and cancel, whichever block-wise transfers run and whenever the delayed notifications fire: no observer, link, queued batch entry or timer that refers to a freed resource is followed. After a resource is deleted, nothing refers to it any more: no observer, no link of a collection, no queued batch entry, no pending delayed notification. (Known exceptions, each with a witness: deleting a collection while it is observed, while it is linked from another collection or while a delayed notification of it is pending leaves dangling pointers that are followed later; so does deleting a resource that is linked twice from one collection.)",
  "all sequences of operations and timer firings, all sizes of notifications, all access policies; deletions of collections and repeated links as restricted in the statement",
  "A dangling pointer appears only after a particular order of linking, observing, deleting and timers, and is often harmless until memory is reused.",
  ["messaging/coap/observe.c:124-281", "messaging/coap/observe.c:1240-1595", "api/oc_server_api.c:726-889", "api/oc_collection.c:80-245", "api/oc_ri.c:549-630"])
p("C96", "Observers of a collection are told what changes in it and nobody else is",
  "When a resource changes, its observers get its new representation and the batch observers of the collections that link to it get it in a batch with its URI, in the order of the collections; nobody else gets anything, whatever the sizes. An observer of the links of a collection (or of its baseline representation) last heard the current links, or the timer that tells it is running; when that timer fires it hears the links of that moment. (Known exceptions, each with a witness: the loop ends at the first linking collection nobody observes, so the observers of later ones are not told - the theorem states exactly who is; a delayed notification is dropped if only the collection is observed; a batch observer of the collection is sent the value of linked resources it may not read; a plain observer with another interface gets the default interface's representation; a large notification about the links is skipped while a transfer is running, and not repeated.)",
  "all reachable states of resources, collections, links, observers and transfers; eventual delivery of links if notifications fit in a block",
  "Depends on the order of collections and observers and on timers; tests look at one collection with one observer.",
  ["messaging/coap/observe.c:588-660", "messaging/coap/observe.c:811-983", "messaging/coap/observe.c:1053-1193", "api/oc_collection.c:80-245", "api/oc_collection.c:603-725"])
p("C97", "A batch observer of /oic/res ends up knowing exactly the resources that exist",
  "For every client observing /oic/res with the batch interface and every URI it may read: the last thing it was sent about the URI is the current representation of the resource there, or its removal, or a queued entry or pending delayed notification still owes it that news; once nothing is pending it knows exactly what exists, whatever the sizes of notifications. When a timer fires, each such observer gets one message with all that is queued for it, in order, or nothing while a transfer to it is running, in which case everything stays queued; queued entries always have a timer running or a transfer whose end starts it. The messages mention only resources the client may read. (Known exceptions, each with a witness: a representation that became empty is not reported; the transfer of a first response too large for a block has no callback, so that entries queued meanwhile wait until the next change; the removal of a resource that is not discoverable is announced.)",
  "all sequences of additions, changes, deletions, registrations, cancellations, transfers and timer firings, all sizes of notifications, all access policies",
  "Needs interleavings of transfers, deletions, reuse of URIs and timers over long runs.",
  ["messaging/coap/observe.c:1240-1600", "api/oc_server_api.c:769-889", "api/oc_discovery.c:644-840", "api/oc_blockwise.c:107-135"])
p("C98", "Opened and closed TCP connections are told exactly once, in order",
  "Whatever the interleaving of the network threads with the event loop, polls and timers: every opened or closed connection put in the lists is told exactly once, and each kind in the order in which it was put there; whenever the threads are not in the middle of reporting and the process runs, waiting events have a poll or a delayed callback pending or are being handled. If no thread closes a connection just while the event loop is telling about closed ones, then the event loop, left alone, comes to rest having told all that each thread opened and all that it closed, in its order. (Known exceptions, each with a witness: a connection closed by a thread while the event loop is telling about others is never told, so its observers stay; a connection may be told closed before it is told opened; start events waiting when the process ends are neither told nor freed.)",
  "all interleavings of any number of network threads with the event loop, at the granularity of single accesses to shared memory",
  "A lost event needs a particular interleaving of several accesses in two threads.",
  ["api/oc_session_events.c:47-174", "port/linux/tcpsession.c:240-345", "util/oc_process.c:269-284", "util/oc_process.c:493-504"])
p("C99", "Every registered session callback hears each event once",
  "Callbacks are kept in the order of registration. When an event is told, each callback is called at most once and in that order, everyone registered in the end was called, and nobody was called who was not registered, also if callbacks register and remove others; if they register none, the telling ends and touches no freed callback. Removing takes away exactly the first callback with that function, version and (unless ignored or version 0) user data. (Known exception, with a witness: a callback that removes itself is read after it was freed.)",
  "all lists of callbacks and all ways in which they register and remove callbacks other than themselves",
  "Needs callbacks that change the list during the traversal in every way.",
  ["api/oc_session_events.c:203-282", "api/oc_session_events.c:308-334"])
p("C100", "Certificates are accepted exactly if they have the OCF profile",
  "A certificate is accepted as that of a peer, or of a role, exactly if it has the profile of identity, or role, certificates: version 3, an allowed digest and curve, exactly the key usages digitalSignature and keyAgreement, no authority, marked for servers, clients and its kind, and neither for the other kind nor for any usage. Certificates accepted as authorities have the profile of authorities (keyCertSign, nothing beyond digitalSignature and cRLSign, path length sufficient for their depth), every such root that is its own issuer is accepted, and for names that are the same or differ in length a certificate is taken for a root exactly if it is its own issuer. No certificate passes as two kinds. A flag is raised exactly outside of the validity period. A common name that spells a uuid is read as that uuid. (Known exceptions, each with a witness: a certificate issued by another authority passes as a root if the two names have the same length; a proper intermediate certificate with such names is not recognised as one.)",
  "all certificates, all masks of allowed digests and curves, all depths",
  "The space of certificates is unbounded; tests have a handful of generated certificates.",
  ["security/oc_certs_validate.c:38-331", "security/oc_certs.c:103-148", "security/oc_certs.c:309-379"])
p("C101", "A peer with a certificate gets in only through a trust anchor of the device for that peer",
  "When a handshake with an own identity certificate succeeds, the chain of the peer starts at a trust anchor of that device (not a manufacturer's) whose credential has the uuid of the peer or the wildcard as its subject; every certificate of the chain has its profile, is within its validity period and is faultless for mbedtls, and the uuid of the peer is the one in its own certificate. Conversely such a peer is let in. The first sentence is false of the code in general: it holds while only trust anchors of that device for identity certificates are configured and either no earlier root is remembered or the root of the chain is one of them. (Exceptions with witnesses: a manufacturer trust anchor, or one of another device, in the list ends the search with success; the root of an earlier handshake is used for a later one whose chain starts at a manufacturer trust anchor; a removed trust anchor remembered by an own certificate is read after it was freed.) In all cases nobody gets in before a trust anchor of the device was configured and was the root of a chain shown to that own certificate.",
  "all histories of added and removed trust anchors and own certificates and of handshakes with arbitrary chains",
  "Authorisation bypasses depend on the order of the trust anchors and on earlier handshakes; tests try single handshakes with one trust anchor.",
  ["security/oc_tls.c:1748-1924", "security/oc_tls.c:1627-1646", "security/oc_tls.c:1226-1241", "security/oc_tls.c:1528-1569"])
p("C102", "A PSK handshake uses exactly the key the device has for that peer",
  "For a PSK identity that is a uuid (in normal operation also one after the prefix of a device that is being taken over) the key is that of the first PSK credential for that uuid, which becomes the identity of the peer, and without such a credential the handshake is refused. While the random PIN method is in progress the identity of that method gets the key derived from the PIN and the uuid of the device. Whatever identity a peer sends, no other key is ever used: it is the one of a PSK credential for the uuid at the start of the identity, or the PIN's in that state. The identity a device shows itself is understood by the other side in the same way. (Known exceptions, each with a witness: an identity that goes on after the uuid is accepted for that uuid; an identity shorter than 16 bytes, also after the prefix, is compared beyond its end.)",
  "all identities, credentials, states and methods of the device",
  "The identity is a byte string chosen by an unauthenticated peer; tests use the identities of well-behaved peers.",
  ["security/oc_tls.c:831-908", "security/oc_tls.c:1947-2007", "security/oc_cred.c:337-359"])
p("C103", "Secured connections are set up as the state of the device demands",
  "While a device is ready for its ownership transfer, a connection is opened exactly for a new endpoint after a method was selected and while the device has no other; it is the onboarding connection, of which there never are two, and it offers the suites of the selected method only. Outside of that state every new endpoint gets a connection, none is an onboarding connection, and there is never more than one per endpoint. The peer must authenticate itself unless the device is a server that is not past the ownership transfer. Without a selection by the application anonymous suites are offered only in the just-works method and no peer is treated as a cloud; a selection is used by the next connection and no later one. An owned device shows its selected identity certificate, otherwise the selected manufacturer's. Closing the onboarding connection in that state resets the device, and nothing else does. (Known exceptions, each with a witness: a selection that the application made for its own next connection is taken by a client that connects in between, so that an owned device in normal operation offers anonymous suites as a server, or treats that client as a cloud, and the application's connection lacks the suites and certificates it selected.)",
  "all histories of selections, connections opened in either role, connections closed and arbitrary changes of the devices",
  "The flaw needs a foreign connection between a selection and its use; tests have no concurrent peers.",
  ["security/oc_tls.c:1648-1744", "security/oc_tls.c:1947-2007", "security/oc_tls.c:2114-2248", "security/oc_tls.c:468-555"])
p("C104", "Messages to a secured peer are written once, to that peer, and wait for the handshake",
  "Every message handed over for a secured endpoint is, as often as it was handed over, either written in the session with that endpoint, or waiting, or given up; it is never written more often nor to another endpoint. Before the end of the handshake messages wait in order, each once; after it they are written at once. A message is given up only if the session fails or is closed, the device is not in normal operation or has no memory, or because the same message already waits. Messages to one endpoint leave in the order in which they were handed over, provided none is handed over between the end of the handshake and the write of those that wait. When the queued events are handled, all messages that waited for a peer with a finished handshake are written. There is one peer per endpoint, and events only refer to peers that still exist. (Known exceptions, each with a witness: a message handed over right after the handshake overtakes those that wait; if the handshake ends in the retransmission timer, messages wait for ever while later ones are written; if the connection ends before the assertion of roles is answered, a write for the released peer stays queued, which reads released memory or makes a new peer in the same place lose its message; the same happens to the events of a peer that is just connecting when a message is sent to its endpoint.)",
  "all histories of messages, datagrams, handshake and write outcomes, timers, connects and closes, and all choices of the allocator",
  "Loss, overtaking and stale events need particular interleavings of network, timers and application, and memory reuse.",
  ["security/oc_tls.c:346-377", "security/oc_tls.c:398-555", "security/oc_tls.c:742-773", "security/oc_tls.c:2560-2766", "security/oc_tls.c:2790-2794", "security/oc_tls.c:2878-2925", "security/oc_tls.c:3003-3086"])
p("C105", "OSCORE between devices: who said what, in answer to what",
  "Whatever the devices that carry messages do, a message that a device accepts as protected with OSCORE was protected, with these contents and as a request or as an answer to that same message, by the one device that holds the sender key; it is attributed to the subject of the credential whose key opened it, and a message that was not multicast needs pairwise keys. An answer accepted in a pairwise association is the answer the peer gave to the very message of this device (by number, and by token or message id) that it is taken to answer, with the contents this device gave that message. No two messages are protected with the same key and nonce. (Known exceptions, each with a witness: an answer that is sent again is bound to the number of its own previous transmission, so that under a changed token it passes as the answer to another request; the value of the Observe option is taken from the outer message, which is not protected; a request that is sent again is protected anew and accepted twice if its message id is changed on the way.)",
  "every number of devices and contexts, every interleaving of requests, answers, group requests, retransmissions, ends of transactions and callbacks, and deliveries of arbitrary packets whose ciphertexts were sent before or made with a known secret",
  "the attacker may reorder, repeat, redirect and rewrite everything outside the ciphertext; tests play one exchange with fixed vectors",
  ["security/oc_oscore_engine.c: oscore_parse_message, oc_oscore_send_message, oc_oscore_send_multicast_message", "security/oc_oscore_context.c: oc_oscore_find_context_by_token_mid, oc_oscore_find_context_by_kid", "security/oc_oscore_crypto.c: oc_oscore_compose_AAD, oc_oscore_AEAD_nonce"])
p("C106", "OSCORE between devices: exchanges work",
  "A request with an unused token to a peer with an OSCORE context is protected; when it reaches the other end of the association with a number not seen there, it is accepted there with its contents and Observe option. It is awaited with the number it was sent with until its callback is removed or it is sent again. An answer to an accepted message is protected, and when it reaches the other end while the request is awaited, it is accepted as the answer to that request. (Known exceptions, each with a witness: once the request has been sent again, the answer to its first transmission cannot be opened; an answer that is sent again cannot be opened; with two contexts for one subject the answer is protected in the first of them.)",
  "every pair of devices, contexts, contents, tokens and message ids, whatever has happened before and in between",
  "the two ends keep the numbers of messages in client callbacks, transactions and endpoints, which other messages change",
  ["security/oc_oscore_engine.c: oc_oscore_send_message, oscore_parse_message", "messaging/coap/transactions.c: coap_send_transaction", "security/oc_oscore_context.c: oc_oscore_find_context_by_UUID"])
p("C107", "Cloud: what the status says",
  "Whatever the application, the network and the cloud do, the status of a device never says logged in without registered; and a registered device has a refresh token and a user id, which it needs to renew its access. (Known exception, with a witness: when the answer to a registration redirects the device to another server while a request of a reset is outstanding over the session that is closed by that, the device is registered without tokens.)",
  "every state the device is switched on in, every interleaving of API calls, resource updates, timers in any order, answers of any kind to any outstanding request, failures to send, to allocate and to resolve, and session and interface events",
  "closing a session answers the outstanding requests from within the handler of another answer; tests answer one request at a time",
  ["api/cloud/oc_cloud_manager.c", "api/cloud/oc_cloud.c", "api/cloud/oc_cloud_apis.c", "api/cloud/oc_cloud_deregister.c"])
p("C108", "Cloud: a registered device keeps trying",
  "While the manager runs and the device is registered, it is logged in over a session whose end the manager will notice, or a timer or request of the manager is pending that leads to a login, another attempt or the end of the registration: the manager never gives up silently. (Known exceptions, each with a witness: a session that came up between the end of the last one and the restart of the manager and ended unnoticed; a session that existed before the manager was started; a refresh by the application that is not answered; a reset after a deregistration that could not be sent.)",
  "every state the device is switched on in and every interleaving as in C107, except that sessions do not come up while the manager is about to restart, interfaces do not come up during a session, logins are answered over a session the manager knows of, no reset finds a deregistration, and the application does not itself register, log out or refresh while the manager runs",
  "liveness after every order of timer, answer and session event cannot be sampled; a missed case shows as a device that is offline until it is switched off",
  ["api/cloud/oc_cloud_manager.c", "api/cloud/oc_cloud.c", "api/cloud/oc_cloud_apis.c", "api/cloud/oc_cloud_deregister.c"])
p("C109", "Cloud: resets are carried out",
  "A reset deletes the configuration at once or is under way afterwards, unless a deregistration is in progress; a reset that is under way is not lost: when no request, timer or delayed callback of it is left, the configuration has been deleted, and a deletion leaves the device unregistered and without tokens. (Known exceptions, each with a witness: after an oc_cloud_deregister that could not be sent a reset reports success and does nothing; the end of the session while the manager runs cancels the reset; an interface that comes up between the deregistration and the deletion cancels the deletion, and the device registers again.)",
  "every state for the start; every interleaving as in C107 for the rest, without a new configuration, and without the end of the session, a restart of the manager or a redirection while the manager runs",
  "the reset goes through up to three requests and two delayed callbacks, each of which may fail in several ways or be answered by the end of the session",
  ["api/cloud/oc_cloud.c: cloud_reset", "api/cloud/oc_cloud_deregister.c", "api/cloud/oc_cloud_context.c: cloud_context_clear"])
p("C110", "Cloud: the parameters of calls are freed once",
  "The parameters that API calls allocate are freed exactly once and not used afterwards; each allocation is reachable from exactly one outstanding request or delayed callback, and when none is left none is leaked. (Known exception, with a witness: the second half of a deregistration that cannot send its request reads its parameters after it has freed them.)",
  "every state the device is switched on in and every interleaving as in C107, except that the delayed second half of a deregistration can send its request",
  "the parameters of a deregistration travel through nested callbacks, and a session that is closed within a handler frees others",
  ["api/cloud/oc_cloud_apis.c: oc_cloud_api_new_param, oc_cloud_api_free_param", "api/cloud/oc_cloud_deregister.c"])
p("C111", "Cloud: silence",
  "A device without cloud configuration and without an outstanding registration or API call sends nothing to a cloud until it is configured again, whatever the application calls; a forced reset leads to that state unless such a request is left. A manager that is stopped while no request and no reset is outstanding sends nothing until the application starts it or makes a call. (Known exceptions, each with a witness: the answer to a registration that is outstanding over a session the manager has forgotten survives a forced reset and registers the device again; stopping the manager during a registration schedules the registration again.)",
  "every state as described, every continuation as in C107 without the excluded calls",
  "a callback that was not removed shows only when the timers fire in a particular order",
  ["api/cloud/oc_cloud.c: oc_cloud_manager_stop_v1, cloud_reset", "api/cloud/oc_cloud_manager.c: cloud_manager_stop", "api/cloud/oc_cloud_context.c: cloud_context_clear"])
p("C112", "Device provisioning: the order of the steps",
  "The provisioning client asks for a step (time, owner, cloud configuration, credentials, access control) only when all earlier steps are done and this one is not; it accepts an answer only for the step that comes next and has been asked for, exactly when all earlier and no later steps are done; and it starts the cloud only when all five are done. The status it reports says which steps are done and asked for.",
  "every interleaving of API calls, delayed callbacks in any order, answers of any kind to outstanding requests, session, interface and cloud events, and every behaviour of the surroundings (endpoints, sending, certificates, cloud manager)",
  "late, repeated and reordered answers meet every state of the client; tests answer requests in order",
  ["api/plgd/device-provisioning-client/plgd_dps_provision.c: dps_provision_next_step_async, dps_get_credentials_handler, dps_get_acls_handler", "api/plgd/device-provisioning-client/plgd_dps_time.c", "api/plgd/device-provisioning-client/plgd_dps_provision_owner.c", "api/plgd/device-provisioning-client/plgd_dps_provision_cloud.c"])
p("C113", "Device provisioning: when everything is repeated",
  "All steps are forgotten and repeated by the next attempt exactly when the service refused something, the connection failed three times in a row, the cloud could not be started or reprovisioning was demanded since the last time; otherwise an attempt goes on where the last one stopped. A start of the manager after such an event finds no step done.",
  "every interleaving of API calls, delayed callbacks in any order, answers of any kind to outstanding requests, session, interface and cloud events, and every behaviour of the surroundings (endpoints, sending, certificates, cloud manager)",
  "the rule depends on the whole history of failures",
  ["api/plgd/device-provisioning-client/plgd_dps_provision.c: dps_provisioning_handle_failure", "api/plgd/device-provisioning-client/plgd_dps_manager.c: dps_manager_provision_async, plgd_dps_manager_start"])
p("C114", "Device provisioning: a running manager does not get stuck",
  "While the manager runs and has an endpoint, the device is completely provisioned, or a callback is pending, a request is outstanding or a session is still to be closed that will continue the provisioning. (Known exceptions, each with a witness: a refused answer to the cloud configuration schedules nothing, and without a call of the application nothing ever happens again; an answer to a renewal that redirects the device while a session is to be closed; a factory reset while a restart is pending leaves a manager that counts as started, does nothing and cannot be started.)",
  "every interleaving of API calls, delayed callbacks in any order, answers of any kind to outstanding requests, session, interface and cloud events, and every behaviour of the surroundings (endpoints, sending, certificates, cloud manager)",
  "a forgotten retry shows only after one particular order of events, as a device that stays offline",
  ["api/plgd/device-provisioning-client/plgd_dps_provision_cloud.c:256-318", "api/plgd/device-provisioning-client/plgd_dps_manager.c", "api/plgd/device-provisioning-client/plgd_dps.c: dps_handle_endpoint_event", "api/plgd/device-provisioning-client/plgd_dps_context.c: dps_context_reset"])
p("C115", "Device provisioning: silence after a stop",
  "A manager that is stopped while no request is outstanding and no restart is pending sends nothing to the service and does not start the cloud until the application starts it. (Known exceptions, each with a witness: an answer to an outstanding request that comes after the stop continues the provisioning; a network interface that comes up restarts a manager that was stopped before its first request.)",
  "every state as described and every continuation without a start, restart or update of the resource",
  "a callback that was not removed shows only when the timers fire in a particular order",
  ["api/plgd/device-provisioning-client/plgd_dps_manager.c: plgd_dps_manager_stop", "api/plgd/device-provisioning-client/plgd_dps.c: dps_restart_initialized"])
p("C116", "Device provisioning: it can always be completed",
  "From every reachable state in which an attempt is pending, the cloud is not marked as started and no renewal is marked as running, a service that answers correctly brings the device to the provisioned state with a running cloud manager within 13 events, whatever failed before. (Known exception, with a witness: when the steps are forgotten because of missing certificates after the cloud manager was stopped, the mark that the cloud has been started is kept, the client takes it for an error in every answer, and no answer is ever accepted again until the application intervenes.)",
  "every reachable state as described, without the events of C114",
  "recovery from every combination of earlier failures cannot be enumerated by tests",
  ["api/plgd/device-provisioning-client/plgd_dps_provision.c", "api/plgd/device-provisioning-client/plgd_dps_manager.c"])
p("C117", "Device provisioning: the observer of the cloud",
  "When the observer finds the session with the cloud down in the configured number of checks in a row, it switches to another server or reprovisions the device, and does neither before; when it finds the device registered and logged in it stops observing and changes nothing. (Known exception, with a witness: after it has switched to a server with the same identifier nobody observes that server.)",
  "every state with an active observer, every number of checks",
  "the counter interacts with the callback that runs it; the default is 30 checks",
  ["api/plgd/device-provisioning-client/plgd_dps_cloud.c: dps_cloud_observe_status_async, dps_cloud_observer_on_server_change", "api/oc_event_callback.c:91-105"])
p("C118", "Device provisioning: delays between attempts",
  "A retry configuration is accepted exactly when it has one to eight nonzero values, is returned as it was set, and is left alone when it is refused. The n-th attempt after a reset waits between half of and the whole of the value number n modulo the number of values, and after each round the next endpoint of the service is selected exactly once; delays are never zero and never above 255 seconds. (Known exception, with a witness: a schedule of the application that never gives up violates the assertion on the counter.)",
  "every sequence of configuration changes, increments and resets, every random value",
  "the counter wraps around the configuration, which may change in between",
  ["api/plgd/device-provisioning-client/plgd_dps_retry.c"])
p("C119", "Device provisioning: certificates are renewed in time",
  "A certificate is not yet valid, valid, expiring or expired exactly by its dates and the limit; one that is not expiring is looked at again after at least ten seconds and before it expires; and looking again and again finds it expiring, and then renews it at once, while it is still valid. (Known exception, with a witness: with an expiring limit below ten seconds it may be found only after it has expired.)",
  "every time, validity and limit of at least ten seconds (dates below 2^50 seconds)",
  "the intervals shrink with the remaining time; tests cannot wait for certificates to expire",
  ["api/plgd/device-provisioning-client/plgd_dps_pki.c: dps_pki_validate_certificate, dps_pki_calculate_renew_certificates_interval, dps_pki_schedule_renew_certificates"])
p("C120", "Lease options as text",
  "plgd_dps_hex_string_to_bytes reads bytes separated by colons (one or two digits of either case each) and pairs of digits without separators as the bytes they stand for, refuses exactly the texts that contain anything but hexadecimal digits and colons, returns the number of bytes needed whatever the size of the buffer, and writes as many bytes as fit, followed by zeros, never outside the buffer. (Known exception, with a witness: an empty place between colons is read as a zero byte instead of being refused.)",
  "every text and every buffer, or none",
  "all mixtures of the two forms and all buffer sizes",
  ["api/plgd/device-provisioning-client/plgd_dps_dhcp.c: hexchar_to_decimal, hex_to_value, plgd_dps_hex_string_to_bytes"])
p("C121", "Parsing of lease options",
  "The parser of vendor encapsulated options reads only inside the given array and ends on every input. It accepts exactly the sequences of options with a configured code and one to 255 bytes of data, and of several options of a kind the last one counts; everything else is refused. (Known exception, with a witness: a single byte left over at the end is ignored.)",
  "every array of bytes and every choice of option codes, also equal ones",
  "the input comes from the network; lengths in it are arbitrary",
  ["api/plgd/device-provisioning-client/plgd_dps_dhcp.c: parse_option, plgd_dps_dhcp_set_option_cbk, dps_dhcp_parse_vendor_encapsulated_options"])
p("C122", "Settings taken from a lease",
  "A lease is refused exactly when it is no sequence of options, names an unknown hash algorithm or has a fingerprint that cannot be pinned, and then nothing is changed. Otherwise algorithm, fingerprint and address of the lease are in force afterwards; it is reported as not changed exactly when they were in force before, and provisioning again is asked for exactly when the address is new or the device is not provisioned. After every history a fingerprint with an algorithm has the length of its hashes. (Known exceptions, each with a witness: options without an address, or with one of 128 bytes or more, remove all addresses although success is reported; a fingerprint without an algorithm is stored but pins nothing.)",
  "every lease, every state of the settings, every history of leases and calls",
  "combinations of old and new settings, long addresses and odd options",
  ["api/plgd/device-provisioning-client/plgd_dps_dhcp.c:253-355", "api/plgd/device-provisioning-client/plgd_dps.c: dps_set_certificate_fingerprint", "api/plgd/device-provisioning-client/plgd_dps_endpoints.c: dps_set_endpoint"])
p("C123", "Which provisioning servers are trusted",
  "Without a pinned fingerprint a chain of certificates is accepted exactly when every certificate passes the usual verification, or always if verification is switched off. With one it is accepted exactly when some certificate of the chain has the fingerprint or the leaf passes the usual verification by itself. The application can refuse every certificate, a missing hash algorithm refuses the chain, and the data of the verification is freed exactly once. (Known consequence, with a witness: since failures above the leaf are forgiven when a fingerprint is pinned, a leaf issued by an authority that nobody trusts is accepted although no certificate has the pinned fingerprint; without a pinned fingerprint the same chain is refused.)",
  "every chain of any length, every result of the usual verification and of the callback of the application",
  "chains are made by an attacker",
  ["api/plgd/device-provisioning-client/plgd_dps_verify_certificate.c: dps_verify_certificate", "security/oc_tls.c: tls_verify_certificate, verify_cloud_certificate", "security/oc_pki.c: default_verify_certificate_cb"])
p("C124", "Every management operation is reported exactly once",
  "A hard reset, pairwise provisioning of credentials or OSCORE contexts, provisioning of an access control entry and the deletion of credentials and entries call the application back exactly once if and only if the call returned success. Until then each waits for exactly one request, so that it cannot get stuck: once the pending requests are answered or given up, at most six answers for each operation end them all. The nested closing of connections always ends.",
  "every history of calls, answers in any order, lost connections, failed allocations and failed sends, with any number of operations on shared devices",
  "closing a connection ends other operations inside the end of the first one, to any depth",
  ["security/oc_obt.c: free_hard_reset_ctx, free_credprov_state, free_oscoreprov_state, free_acl2prov_state, free_creddel_state, free_acedel_state and the callbacks of these sequences", "security/oc_tls.c: oc_tls_close_connection, oc_tls_free_peer", "api/client/oc_client_cb.c: oc_ri_free_client_cbs_by_endpoint_v1"])
p("C125", "Management operations make their requests in order, and success means all of them",
  "Every operation puts its devices into provisioning mode, does its work, and puts them back into normal operation, each request being sent only after the previous one was answered with success. It is reported as successful exactly when all were. After success the two devices of a pair hold the same key, each for the other one, or the same OSCORE secret with the identifiers crossed over. The tool removes its credentials for a device only after the device has confirmed a reset.",
  "every history of calls, answers in any order, lost connections, failed allocations and failed sends",
  "interleavings of several operations on the same devices",
  ["security/oc_obt.c: oc_obt_device_hard_reset, oc_obt_provision_pairwise_credentials, oc_obt_provision_pairwise_oscore_contexts, oc_obt_provision_ace, oc_obt_delete_cred_by_credid, oc_obt_delete_ace_by_aceid, switch_dos and their callbacks"])
p("C126", "Freed devices are not used",
  "If the application starts no hard reset of a device that has another operation in progress, and no operation on a device whose reset is in progress, no operation ever reads or frees a device that was freed. (Known exceptions, each with a witness: two resets of one device read it after it was freed and free it twice; a reset requested while an access control entry is provisioned makes the callback of the latter get a freed UUID; a reset of the first device of a pair lets the provisioning of the pair go on with the freed device.)",
  "every such history of calls, answers in any order, lost connections and failures",
  "memory errors that need a particular order of answers on shared connections",
  ["security/oc_obt.c: free_device, free_hard_reset_ctx, free_acl2prov_state, free_credprov_state", "security/oc_tls.c: oc_tls_close_connection"])
p("C127", "What a management operation leaves behind",
  "A device stays known to the tool until a hard reset of it is reported. A failure always has a cause, a request that could not be sent, was refused or lost its connection, and nothing is sent after it. (Known consequences, each with a witness: a failed operation leaves the device in provisioning mode; a failed reset makes the tool forget the device but not its credentials, so that calls are refused until it is discovered again; the end of an operation closes the connection and so fails every other operation that waits for the same device, although the device accepted all of its requests.)",
  "every history of calls, answers in any order, lost connections and failures",
  "failures at every place of every interleaving",
  ["security/oc_obt.c: free_hard_reset_ctx, free_credprov_state, free_acl2prov_state, free_creddel_state, free_acedel_state", "security/oc_tls.c: oc_tls_close_connection"])
p("C128", "Every ownership transfer is reported exactly once",
  "An ownership transfer that was accepted, and a request for a random PIN, calls the application back exactly once. Until then it waits for exactly one request, so that it cannot get stuck: once the pending requests are answered or given up, a bounded number of answers ends them all. The nested closing of connections always ends. (Known exception, with a witness: a call that returns -1 because its first request could not be sent has nevertheless called back with a failure and freed the device.)",
  "every history of discoveries, calls, answers in any order, lost connections, failed allocations and failed sends",
  "closing a connection ends other transfers inside the end of the first one",
  ["security/oc_obt_otm_justworks.c, security/oc_obt_otm_randompin.c, security/oc_obt_otm_cert.c: oc_obt_perform_just_works_otm, oc_obt_perform_random_pin_otm, oc_obt_perform_cert_otm, oc_obt_request_random_pin", "security/oc_obt.c:433-458 free_otm_state", "security/oc_tls.c:2315-2336 oc_tls_close_connection"])
p("C129", "Ownership transfer keeps to its order of requests",
  "Each method sends its requests in the order of the specification, each only after the previous one was answered with success. A transfer is reported as successful exactly when all of them were. The device is told that it is owned only after it accepted the credential of its owner, and nothing is sent for a transfer after its report. (Known exception, with a witness: a device discovered again in the middle of a transfer redirects the remaining requests to the new address.)",
  "every history of discoveries, calls, answers in any order, lost connections and failures",
  "interleavings of transfers with each other and with discovery",
  ["security/oc_obt_otm_justworks.c, security/oc_obt_otm_randompin.c, security/oc_obt_otm_cert.c: obt_jw_2 .. obt_jw_16, obt_rdp_2 .. obt_rdp_14, obt_cert_2 .. and the calls that start them", "security/oc_obt.c: get_endpoints, cache_new_device"])
p("C130", "Ownership transfer does not use freed devices",
  "If the application transfers each device at most once at a time, and no transfer of a device ends while its endpoints are being requested, no transfer or discovery reads or frees a device that was freed, and no null pointer is followed. (Known exceptions, each with a witness: two transfers of one device at a time; a transfer that fails while the GET of /oic/res of its device is pending; a request for a random PIN for which there is no memory.)",
  "every such history of discoveries, calls, answers in any order, lost connections and failures",
  "memory errors that need a particular order of answers on shared connections",
  ["security/oc_obt.c:433-458 free_otm_state, :264-273 free_device, get_endpoints, cache_new_device", "security/oc_obt_otm_justworks.c, security/oc_obt_otm_randompin.c, security/oc_obt_otm_cert.c: all callbacks"])
p("C131", "What an ownership transfer leaves behind",
  "A transfer that failed leaves its device freed for good, on neither list. If no device is in two transfers at once, a transfer that succeeded leaves it among the owned devices from then on, and if the UUIDs drawn are not those of devices known to have no owner, the device then has the UUID drawn by the tool and the tool has the credential of the owner for it. (Known exceptions, each with a witness: a failure after the device was told that it is owned leaves a device with an owner that has forgotten it; a call that fails for want of memory has removed the credential of the device; a second call in the middle of a transfer removes the credential, and the transfer then succeeds without it.)",
  "every such history of discoveries, calls, answers in any order, lost connections and failures",
  "failures at every place of every interleaving",
  ["security/oc_obt.c:433-458 free_otm_state", "security/oc_obt_otm_justworks.c, security/oc_obt_otm_randompin.c, security/oc_obt_otm_cert.c: oc_obt_perform_just_works_otm and the like: removal of old credentials; obt_jw_9 and the like: oc_sec_add_new_cred"])
p("C132", "Messages to secured endpoints never leave in the clear",
  "In every interleaving of the message buffer, OSCORE, TLS and CoAP processes, a message sent to a secured endpoint is written to the network only by TLS or, to a group, protected with the group context; it is never sent as it is. What is sent in the clear was addressed to an unsecured endpoint, and each message keeps its endpoint. Received ciphertext never reaches the CoAP engine, and what the engine sees as secured was decrypted by TLS or, if received by multicast, opened by OSCORE. (Known exception, with a witness: a discovery request to a secured endpoint is sent as it is.)",
  "every sequence of received, sent and decrypted messages, dropped endpoints and turns of the event loop, in builds with and without OSCORE, client and dynamic allocation",
  "the decision is spread over four processes and depends on the order of events in a shared queue",
  ["api/oc_message_buffer.c:45-155 oc_recv_message, oc_send_message, handle_inbound_network_event, handle_outbound_network_event", "security/oc_oscore_engine.c:290-820 oc_oscore_recv_message, oc_oscore_send_multicast_message, oc_oscore_send_message", "security/oc_tls.c:2560-2766 oc_tls_send_message, 3024-3086 oc_tls_recv_message"])
p("C133", "References to messages are neither lost nor used after release",
  "Every reference to a message handed to the stack is at every moment in exactly one place: in the event queue, kept by TLS, or released. It is released once, and read only before that. This includes the copy made by OSCORE, endpoints dropped with events pending, and the static queue of ten events: a message taken from the queue can always be passed on, although the result of posting is ignored. (Known exception, with a witness: without memory for the copy made by OSCORE a null pointer is followed.)",
  "every sequence of received, sent and decrypted messages, dropped endpoints, failures and turns of the event loop",
  "leaks and double releases need particular orders of events and a full queue",
  ["api/oc_message_buffer.c:45-155", "security/oc_oscore_engine.c:509-820 oc_oscore_send_message", "security/oc_tls.c:399-466 tls_drop_endpoint_events, 2560-2766, 3024-3086", "util/oc_process.c:288-343 do_event, 441-481 oc_process_post"])
p("C134", "Messages of one way arrive in order, and all of them",
  "Messages that take the same way (sent in the clear, sent through TLS, received in the clear, received by multicast, received encrypted, decrypted) arrive at the network, at TLS or at the CoAP engine in the order in which they were handed over, each at most once. With dynamic allocation, as long as no endpoint is dropped and OSCORE refuses no message, all of them arrive. Dropping an endpoint takes only its messages out of the queue. The queue empties: three turns for each event in it, in which nothing new is started, are enough. (Known exceptions, each with a witness: messages of different ways overtake each other; a static build loses what is received beyond ten events.)",
  "every sequence of operations and turns of the event loop",
  "order over unbounded sequences through several queues of events",
  ["api/oc_message_buffer.c:45-155", "security/oc_oscore_engine.c:290-820", "messaging/coap/engine.c:1224-1248", "util/oc_process.c:288-343 do_event, 441-481 oc_process_post"])
p("C135", "Each device has at most one key pair, in memory that is its own",
  "If each device is loaded once after each start, before anything else is done for it, no freed key pair is read, the list of key pairs stays a list, no place of the pool is lost, each device has at most one key pair, and both keys fit into their buffers, whatever the files contain and whatever fails. Loading gives a device exactly the keys of its file (the last ones named, if none is too long) or, without a file, those drawn; a pool with one place for each device is always large enough. Key pairs of other devices are not affected. (Known exception, with witnesses: a device that is loaded again from a file that cannot be read has its key pair freed but left on the list; with dynamic allocation the next lookup reads freed memory, without it the next device loaded ties the list into a ring.)",
  "every such sequence of loads, resets, lookups, shutdowns and changed files, every content of the files, every failure",
  "needs failures at particular places and unbounded histories",
  ["security/oc_keypair.c:41-178 oc_sec_ecdsa_get_keypair, oc_sec_ecdsa_decode_keypair, oc_sec_ecdsa_decode_keypair_for_device", "security/oc_keypair.c:273-299 oc_sec_ecdsa_update_or_generate_keypair_for_device", "security/oc_store.c:164-228 oc_sec_load_ecdsa_keypair, oc_sec_dump_ecdsa_keypair"])
p("C136", "Key pairs survive restarts, and resets replace them",
  "As long as the storage is written and not changed from outside, a device has the same key pair after a restart as before. A reset replaces the key pair by the one drawn, or leaves the device without one if none can be drawn, except if it is to keep valid keys and the key is not given up; the key pairs of the other devices stay. (Known exceptions, each with a witness: a file that cannot be read leaves the device without a key pair at every start; a reset that keeps valid keys keeps any key, even an empty one, unless the application has functions for private keys; a reset that fails leaves the old keys in the storage, and the next start brings them back.)",
  "every such sequence of loads, resets, lookups and shutdowns, every failure",
  "histories with restarts and failures",
  ["security/oc_keypair.c:301-323 oc_sec_ecdsa_reset_keypair", "security/oc_store.c:164-228 oc_sec_load_ecdsa_keypair, oc_sec_dump_ecdsa_keypair", "security/oc_pki.c:516-526 oc_pk_free_key"])
p("C137", "The configuration resource accepts exactly what it can carry out",
  "A request to /oc/con is accepted exactly if it is not empty, each of its properties is a text that is not empty, named n or locn, and the location asked for, if any, is one of the 60 known ones and the device has a location. Then the name and the location are the last ones asked for, nothing else is changed, the callback set last is called once with the request, and both are read back until something else is done with them. Every other request is refused with Bad Request, without a call, and leaves the location, and the name except as said below, as it was. Observers of /oic/d are told exactly if the name is set. Numbers and texts of locations belong together one to one. A device that was not tagged with a location has none that could be read or set; a reset sets an existing location to unknown. (Known exceptions, each with a witness: a request with a name and a location that is refused still sets the name; a device added after the callback was set has none.)",
  "every payload, device and state, every sequence of requests, devices added, callbacks set, resets and changes by the application",
  "payloads and histories of any length; order of checks and effects",
  ["api/oc_con_resource.c:46-181 con_resource_get, con_resource_post, oc_set_con_write_cb, oc_create_con_resource", "api/oc_enums.c:113-257 oc_locns, oc_enum_locn_to_string_view, oc_enum_locn_from_str, oc_str_to_enum_locn", "api/oc_core_res.c:446-453 oc_core_device_set_name", "security/oc_pstat.c:305-316 reset of name and location"])
p("C138", "An answer of the provisioning server replaces what it granted before, and nothing else",
  "When the answer of the provisioning server with access control entries is taken, it accounts for every entry tagged dps that is in the list then: subject, permissions and each resource. What earlier answers granted under this tag is gone; a subject the answer does not name has no such entry left. If the entries of the answer have no identifiers and name their resources by path or wildcard, everything they grant is granted. Entries with other tags that no entry of the answer is about are in the list exactly if they were before, whether the answer is taken or not. An answer that is not taken leaves the earlier entries of the server, except those whose identifier it has. The owner of the list stays; an answer that would set it is not taken and changes nothing. No entry is left marked as about to go. (Known exceptions, each with a witness: an answer refused for a later entry has granted the entries before; entries the server sends without the tag stay for ever; an entry of somebody else tagged dps-stale is taken out, or becomes the server's if the answer is refused; an entry of somebody else with an identifier of the answer is replaced.)",
  "every list, every answer, every random value",
  "needs all lists and answers; a wrong list is an access that is not noticed",
  ["api/plgd/device-provisioning-client/plgd_dps_provision.c:101-136 dps_handle_get_acls_response", "api/plgd/device-provisioning-client/plgd_dps_tag.c:26-103 dps_has_tag, dps_acls_set_stale_tag, dps_acls_remove_stale_tag, dps_remove_stale_acls", "security/oc_acl.c:145-178, 345-433 oc_sec_acl_update_res, oc_sec_decode_acl"])
p("C139", "An answer of the provisioning server replaces its own certificates, and no other credential",
  "Let the credentials in an answer of the provisioning server be certificates. When the answer is taken, every credential tagged dps that the device has then is one of the answer: type, use, subject and certificate; those of earlier answers are gone. If the certificates of the answer are in PEM and have no identifiers, each of them is there. Credentials with other tags whose identifier is not in the answer stay, whether the answer is taken or not, up to the mark of the owner and the OSCORE context, and what is there beside them is in the answer. An answer that is not taken leaves the earlier certificates of the server, except those whose identifier it has. The owner of the credentials stays, no credential is left marked as about to go, and no freed credential is used. (Known exceptions, each with a witness: an answer refused for a later certificate has left those before; certificates the server sends without the tag stay for ever; a credential of somebody else tagged dps-stale is taken out, or becomes the server's if the answer is refused; a credential of somebody else with an identifier of the answer is replaced.)",
  "every set of credentials, every answer with certificates, every outcome of the checks of certificates, every random value",
  "needs all sets of credentials and answers; a trust anchor that should be gone is not noticed",
  ["api/plgd/device-provisioning-client/plgd_dps_pki.c:179-222 dps_pki_replace_certificates", "api/plgd/device-provisioning-client/plgd_dps_tag.c:26-30, 60-88, 105-122 dps_has_tag, dps_credentials_set_stale_tag, dps_credentials_remove_stale_tag, dps_remove_stale_credentials", "security/oc_cred.c:1114-1524 oc_sec_decode_cred, oc_sec_apply_cred"])
p("C140", "The cloud configuration is changed by exactly the requests that may, and completely",
  "A POST to the cloud configuration resource is accepted exactly if it does not try to set the status and either asks to leave the cloud with an empty server address, or names a server, its valid id and an access token while the device is neither registering nor registered. A request that is neither changes nothing. A request to leave resets the cloud. After one that names a server the token and the authorization provider are those of the request; user, refresh token and expiry of before are gone, the status is ready to register, every server in the list is in the request, a running manager is started again and the configuration is saved. If the address has fewer than 128 bytes and there is memory, the server named is the one in use and the one shown, with its id; if the addresses of the further servers are valid too, all of these are in the list. What the resource shows does not depend on tokens or user. (Known exceptions, each with a witness: an address of 128 bytes is answered with success and leaves the device without server; a further server with an invalid address takes those after it along; if the answer cannot be encoded the request is refused although it was carried out, and it is not saved.)",
  "every configuration, every payload, every outcome of allocation",
  "needs all payloads and configurations; tests try a few requests",
  ["api/cloud/oc_cloud_resource.c:34-239 oc_cps_to_string, oc_cloud_encode, cloud_update_from_request, cloud_resource_post", "api/cloud/oc_cloud.c:194-217, 294-328 cloud_set_cloudconf, oc_cloud_update_by_resource", "api/cloud/oc_cloud_endpoints.c:50-125 oc_cloud_endpoint_addresses_set"])
p("C141", "What the provisioning client saves is what it loads after a restart",
  "Saving the state of the provisioning client and loading it into a store just initialised gives back the same server in use, the same list of servers with their names (the one in use moves to the front, a missing name reads as the empty name), the same owner and the same note of having been provisioned. Over a store that already holds something the same is true if a server and an owner were saved. Whatever the file says, the list of servers keeps its invariant (distinct valid addresses, one in use if there is any); a part the file does not name is left as it is, and properties of other names do not matter. Without a file the load fails and leaves the store empty. (Known exceptions, each with a witness: an owner that was removed stays when the file is loaded over the old store; a further server with an invalid address takes those after it along.)",
  "every reachable store with named servers, every file",
  "needs all stores and all files; tests load a few files",
  ["api/plgd/device-provisioning-client/plgd_dps_store.c:82-318 dps_store_deinit, dps_store_set_endpoints, dps_store_decode, dps_store_encode_with_map, dps_store_load", "util/oc_endpoint_address.c:501-575 oc_endpoint_address_encode, oc_endpoint_addresses_encode"])

with open(os.path.join(os.path.dirname(__file__), "..", "properties.jsonl"), "w") as f:
    for x in P:
        f.write(json.dumps(x) + "\n")
print(len(P))
