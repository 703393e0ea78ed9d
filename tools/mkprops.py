#!/usr/bin/env python3
"""Writes /verif/properties.jsonl from the table below (one JSON object per line)."""
import json
C="source/core_http_client.c"; H="source/include/core_http_client.h"; P="source/include/core_http_client_private.h"
D="source/include/core_http_config_defaults.h"; T="source/interface/transport_interface.h"
def a(f,*s): return [f"{f}:{x}" for x in s]
L=[]
def p(title,statement,quant,why,anchors):
    L.append(dict(id="C%02d"%(len(L)+1),title=title,statement=statement,quantifier=quant,why_tests_cant=why,anchors=anchors))
p("Initialised request is the exact documented byte sequence",
  "When HTTPClient_InitializeRequestHeaders returns HTTPSuccess, the first headersLen bytes of the buffer are exactly '<METHOD> <PATH or /> HTTP/1.1 CRLF [User-Agent: <UA> CRLF] Host: <HOST> CRLF [Connection: keep-alive CRLF] CRLF', the optional lines being controlled only by the two request flags, and nothing else in memory changed.",
  "every method, path (NULL, empty or not), host, flag word, buffer and prior buffer content","unbounded strings, 2^32 flag words, any buffer content",a(C,"HTTPClient_InitializeRequestHeaders","writeRequestLine","addHeader"))
p("InitializeRequestHeaders decides its status exactly",
  "HTTPClient_InitializeRequestHeaders returns HTTPInvalidParameter exactly for a NULL/empty mandatory argument, HTTPInsufficientMemory exactly when the request (or a part before a rejected host) does not fit, HTTPSecurityAlertInvalidCharacter exactly when the host contains CR or LF and the preceding lines and the Host line fit, HTTPSuccess otherwise.",
  "every argument combination and buffer length","boundary must be right for every length, not the sampled ones",a(C,"HTTPClient_InitializeRequestHeaders"))
p("AddHeader appends exactly one header line",
  "When HTTPClient_AddHeader returns HTTPSuccess, the request is the previous request, minus its terminating blank line if it had one, followed by '<field>: <value> CRLF CRLF'; headersLen is its length; every byte outside the appended region is unchanged.",
  "every field, value, prior content and buffer length","all contents and lengths, including a previous content that merely looks terminated",a(C,"HTTPClient_AddHeader","addHeader","httpHeaderStrncpy"))
p("AddHeader decides its status exactly",
  "HTTPClient_AddHeader returns HTTPInvalidParameter iff an argument is NULL/empty or headersLen > bufferLen; else HTTPInsufficientMemory iff the new line and terminator do not fit; else HTTPSecurityAlertInvalidCharacter iff the field contains CR, LF or ':' or the value contains CR or LF; else HTTPSuccess.",
  "every argument combination (lengths whose sum does not exceed SIZE_MAX)","exact boundary for every length and every byte value in every position",a(C,"HTTPClient_AddHeader","addHeader","httpHeaderStrncpy"))
p("Request building never leaves the caller's buffer",
  "No sequence of InitializeRequestHeaders/AddHeader/AddRangeHeader calls reads or writes outside the caller's objects or changes a byte outside [pBuffer, pBuffer+bufferLen); headersLen <= bufferLen holds after every call, whatever status it returns.",
  "every finite sequence of calls, every argument, every buffer size","histories are unbounded; memory corruption is silent in tests",a(C,"addHeader","writeRequestLine","addRangeHeader"))
p("A failed header addition leaves the request intact",
  "If HTTPClient_AddHeader or HTTPClient_AddRangeHeader returns anything but HTTPSuccess, the request held in the buffer (its first headersLen bytes) is what it was before the call, so the application can go on and send it.",
  "every failing call in every state","needs every position of an illegal character in field or value",a(C,"addHeader","httpHeaderStrncpy"))
p("No header injection through fields, values or host",
  "After InitializeRequestHeaders succeeds with a CR/LF-free method and path, and any sequence of AddHeader/AddRangeHeader calls none of which reports an illegal character, a line-splitting HTTP reader of the buffer sees exactly one request line followed by exactly the headers of the successful calls, in order, each with its exact name and value.",
  "every history of calls, every field and value","injection is about all attacker-chosen bytes",a(C,"addHeader","httpHeaderStrncpy","HTTPClient_AddHeader"))
p("The request line is one line",
  "Whatever method and path the application passes, a successful HTTPClient_InitializeRequestHeaders produces a request whose first line is the request line and whose only headers are the documented ones.",
  "every method and path","all attacker-chosen paths",a(C,"writeRequestLine"))
p("AddRangeHeader writes the documented range for every pair of integers",
  "HTTPClient_AddRangeHeader(start,end) is rejected with HTTPInvalidParameter exactly when end < -1, or start < 0 with end != -1, or end != -1 with start > end, or start = INT32_MIN; otherwise the header it adds is 'Range: bytes=a-b', 'bytes=-n' or 'bytes=a-' in canonical decimal and reading it back gives the requested numbers.",
  "all 2^64 pairs of int32 arguments","2^64 cases",a(C,"HTTPClient_AddRangeHeader","addRangeHeader","convertInt32ToAscii"))
p("Integer formatting is exact and stays in its scratch buffer",
  "Every integer the library formats through AddRangeHeader and Send is written in canonical decimal (no leading zeros, minus sign iff negative), decodes to the same integer, and neither the 10-byte nor the 27-byte scratch array is overrun, nor does signed arithmetic overflow.",
  "every int32 value reachable from the API","2^32 values; stack overruns are silent",a(C,"convertInt32ToAscii","addContentLengthHeader","addRangeHeader"))
p("Content-Length sent equals the body length",
  "When HTTPClient_Send sends a request with a body and without the disable flag, the header block put on the wire is the request plus one line 'Content-Length: <decimal of the body length>'; with the flag or without a body it is the request unchanged.",
  "every body length 1..INT32_MAX, every request, every flag word","2^31 lengths",a(C,"HTTPClient_SendHttpHeaders","addContentLengthHeader","HTTPClient_Send"))
p("SendHttpHeaders is safe for every body length",
  "HTTPClient_SendHttpHeaders, called directly with any reqBodyLen, writes a Content-Length equal to reqBodyLen or fails cleanly.",
  "every reqBodyLen in size_t","2^64 lengths, the failing ones are above 2 GiB",a(C,"HTTPClient_SendHttpHeaders","addContentLengthHeader"))
p("Sending the same request twice sends the same request",
  "Calling HTTPClient_Send again with the same request headers and body transmits the same header block (the library leaves the request as the application built it).",
  "every request, body and number of repetitions","history property: effect of the first call on the second",a(C,"HTTPClient_Send","addContentLengthHeader"))
p("Bytes go out exactly once, in order, whole",
  "HTTPClient_SendHttpData returning HTTPSuccess means the transport accepted exactly the dataLen bytes of pData, in order, no gap and no repetition; on HTTPNetworkError it accepted a prefix; each transport call is offered exactly the not yet accepted suffix; memory is not modified.",
  "every fragmentation, every interleaving of zero and negative returns, every length","unbounded schedules of the transport",a(C,"HTTPClient_SendHttpData")+a(T,"TransportSend_t"))
p("Send gives up exactly when the transport fails or stalls for the timeout",
  "HTTPClient_SendHttpData returns HTTPNetworkError iff some transport call returned a negative value, or returned zero when the clock showed at least HTTP_SEND_RETRY_TIMEOUT_MS (0 without a clock) since the last accepted byte (or the start); the elapsed time is correct across wrap-around of the 32-bit clock.",
  "every clock and transport history, every timeout value","all schedules and clock values incl. wrap-around",a(C,"HTTPClient_SendHttpData","getZeroTimestampMs"))
p("Send terminates",
  "With a clock that advances by at least 1 ms (and less than 2^32 ms in total over a stall) between polls, HTTPClient_SendHttpData makes at most dataLen*(timeout+1)+timeout+1 transport calls; without a clock it makes at most dataLen+1.",
  "every transport behaviour","liveness over unbounded schedules",a(C,"HTTPClient_SendHttpData"))
p("A request is fully sent, headers before body, before anything is received",
  "In HTTPClient_Send the accepted byte stream is always a prefix of header-block ++ body; recv is called only after the whole stream was accepted; if sending fails no recv happens and the status is HTTPNetworkError or HTTPInsufficientMemory.",
  "every transport history","all schedules",a(C,"HTTPClient_Send","sendHttpRequest","sendHttpBody"))
p("Invalid parameters have no effect",
  "If HTTPClient_Send, AddHeader, AddRangeHeader, InitializeRequestHeaders or ReadHeader returns HTTPInvalidParameter from its argument checks, no transport, clock or callback call was made and neither memory nor the request/response structures changed; HTTPClient_Send does so exactly for the documented conditions.",
  "every argument combination","combinatorial space of NULLs and lengths",a(C,"HTTPClient_Send","HTTPClient_AddHeader","HTTPClient_ReadHeader"))
p("Receiving never leaves the response buffer",
  "Every recv call is offered exactly the unused tail of the response buffer (never beyond bufferLen), data are stored consecutively, and no byte outside [pBuffer, pBuffer+bufferLen) changes during HTTPClient_ReceiveAndParseHttpResponse.",
  "every transport history, every conforming parser, every buffer size","unbounded histories; memory errors are silent",a(C,"HTTPClient_ReceiveAndParseHttpResponse","parseHttpResponse"))
p("No undefined behaviour or failed assertion while receiving",
  "For every conforming transport and parser and every fragmentation of the response, HTTPClient_ReceiveAndParseHttpResponse performs no invalid read or write and violates none of its own assertions.",
  "every fragmentation, every parser event sequence allowed by the callback diagram (including pipelined messages and trailers), every buffer size, every header callback setting","unbounded event sequences",a(C,"httpParserOnHeadersCompleteCallback","httpParserOnBodyCallback","httpParserOnHeaderValueCallback","processCompleteHeader"))
p("The final status is determined by what was received",
  "HTTPClient_ReceiveAndParseHttpResponse without the do-not-parse-body option returns HTTPSuccess iff the parser reported no error and the last message it began was reported complete; HTTPNoResponse iff no message was begun; HTTPInsufficientMemory iff incomplete with the buffer full; HTTPPartialResponse iff incomplete with room left; HTTPNetworkError iff recv failed.",
  "every history","decision over all histories",a(C,"getFinalResponseStatus","HTTPClient_ReceiveAndParseHttpResponse"))
p("Receive gives up exactly on stall, and never retries without a clock",
  "Receiving stops on a zero-byte read exactly when the clock shows at least HTTP_RECV_RETRY_TIMEOUT_MS (0 without a clock) since the last received data, correctly across clock wrap-around; the parser is then told of the end of input by exactly one zero-length call.",
  "every clock and transport history","all schedules and clock values",a(C,"HTTPClient_ReceiveAndParseHttpResponse"))
p("Receive timeout is reported as HTTPNetworkError (as the configuration documents)",
  "If HTTP_RECV_RETRY_TIMEOUT_MS expires without data, HTTPClient_ReceiveAndParseHttpResponse returns HTTPNetworkError.",
  "every history ending in a receive timeout","history property",a(D,"HTTP_RECV_RETRY_TIMEOUT_MS")+a(C,"HTTPClient_ReceiveAndParseHttpResponse"))
p("Every response header is delivered exactly once, in order, whole, whatever the fragmentation",
  "For a response whose parser events follow the documented order, the header callback is invoked once per header, in order, with exactly the bytes of the name and of the value and the status code, and headerCount equals the number of headers, for every way the network splits the data.",
  "every response, every split of it into reads (including inside names and values)","exponentially many fragmentations",a(C,"processCompleteHeader","httpParserOnHeaderFieldCallback","httpParserOnHeaderValueCallback"))
p("Values reported in several non-adjacent pieces are delivered correctly",
  "If the parser reports one header value in several pieces that are not adjacent in the buffer (obsolete line folding), the callback still receives the value.",
  "every piece layout","depends on parser piece layout",a(C,"httpParserOnHeaderValueCallback"))
p("headersLen does not depend on network fragmentation",
  "For the same response bytes, pHeaders and headersLen are the same however the network splits them; headersLen never includes the end-of-headers characters.",
  "every response and every two fragmentations","needs all split points",a(C,"httpParserOnHeadersCompleteCallback","parseHttpResponse"))
p("The body is the concatenation of the body pieces, contiguous in the buffer",
  "After receiving, the bodyLen bytes at pBody are exactly the concatenation, in order, of the body data the parser identified in the received stream (chunk framing removed), for every chunking and fragmentation; data not yet parsed and the header block are never modified.",
  "every sequence of body pieces and gaps","overlapping moves over unbounded piece sequences",a(C,"httpParserOnBodyCallback"))
p("A response to HEAD is complete at the end of its headers",
  "For a request whose method is HEAD the parser is told there is no body, so no body is delivered whatever Content-Length says; for any other method the body is awaited.",
  "every request and response","all methods",a(C,"initializeParsingContextForFirstResponse","httpParserOnHeadersCompleteCallback"))
p("Do-not-parse-body returns the raw data after the headers",
  "With HTTP_RESPONSE_DO_NOT_PARSE_BODY_FLAG, once the headers are complete the call stops, returns HTTPSuccess, and pBody/bodyLen is exactly the received data following the header terminator, unmodified.",
  "every response and fragmentation","all fragmentations",a(C,"httpParserOnHeadersCompleteCallback","HTTPClient_ReceiveAndParseHttpResponse"))
p("HTTPSuccess means the response headers were received",
  "If HTTPClient_Send returns HTTPSuccess then a complete header block was received (also with the do-not-parse-body option).",
  "every history and option word","history property under truncation",a(C,"getFinalResponseStatus"))
p("The response structure describes this response only",
  "After a call that received data, every output field of HTTPResponse_t (status code, header count, flags, content length, headers-complete indicator, pointers) depends only on this response, not on what the structure held before.",
  "every previous content of the structure, every history","history across calls",a(C,"parseHttpResponse"))
p("Status code, content length and connection flags are those of the response",
  "After the headers are complete statusCode, contentLength (0 if absent) and the close/keep-alive flags equal what the parser found in the response.",
  "every response, every platform width of size_t","all values incl. > SIZE_MAX",a(C,"httpParserOnHeadersCompleteCallback","httpParserOnStatusCallback","httpParserOnStatusCompleteCallback"))
p("A parse error is never reported as success and stops the exchange",
  "If the parser reports an error, receiving stops at once (no further recv) and the call returns the documented status for that error, never HTTPSuccess; security-relevant errors map to their HTTPSecurityAlert* status.",
  "every parser error, at every point of every history","all error points",a(C,"processLlhttpError","HTTPClient_ReceiveAndParseHttpResponse"))
p("ReadHeader finds the first header with that name, case-insensitively",
  "HTTPClient_ReadHeader returns HTTPSuccess with the value's location and length of the first header whose name equals pField ignoring ASCII case (NULL/0 for an empty value), HTTPHeaderNotFound if there is none in a well-formed response, HTTPInvalidResponse if the response is malformed before it is found.",
  "every response, every name","all responses and names",a(C,"HTTPClient_ReadHeader","findHeaderInResponse","findHeaderFieldParserCallback","findHeaderValueParserCallback"))
p("Case-insensitive comparison is exactly ASCII case folding",
  "Header names compare equal iff they have the same length and the same bytes after mapping a-z to A-Z; no other bytes are identified.",
  "every pair of byte strings","256^n pairs",a(C,"caseInsensitiveStringCmp"))
p("ReadHeader agrees with the headers delivered during receive",
  "After a successful HTTPClient_Send, HTTPClient_ReadHeader on the same response returns the same value that was delivered to the header callback, even when a chunked body was compacted in the buffer.",
  "every response and fragmentation","relation between two calls over mutated memory",a(C,"HTTPClient_ReadHeader","httpParserOnBodyCallback"))
p("strerror is total and injective on statuses",
  "HTTPClient_strerror returns the constant's own name for each of the 16 statuses, distinct for distinct statuses, and NULL for any other integer.",
  "every integer","all integers",a(C,"HTTPClient_strerror"))
p("Request and response may share one buffer",
  "HTTPClient_Send with the response buffer overlapping or equal to the request header buffer transmits the same bytes and returns the same response as with separate buffers.",
  "every request, response and fragmentation","relation between two executions",a(H,"HTTPRequestHeaders_t","HTTPResponse_t")+a(C,"initializeParsingContextForFirstResponse"))
p("Length arithmetic cannot be made to wrap",
  "Whatever field and value lengths are passed, AddHeader/InitializeRequestHeaders never write outside the buffer because of wrap-around of size_t sums.",
  "every length in size_t","lengths near SIZE_MAX are not testable with real objects",a(C,"addHeader","writeRequestLine"))
p("ReceiveAndParse supports a NULL getTime",
  "HTTPClient_ReceiveAndParseHttpResponse with getTime = NULL does not retry empty reads (as documented) and works otherwise.",
  "every call with getTime = NULL","documented option at a public entry point",a(D,"HTTP_RECV_RETRY_TIMEOUT_MS")+a(C,"HTTPClient_ReceiveAndParseHttpResponse"))
p("The response describes the first message only",
  "If the received data contain a second message after the first complete one, the returned response is still the first message.",
  "every pipelined data","needs data beyond the message in the same read",a(C,"httpParserOnMessageBeginCallback","httpParserOnBodyCallback"))
p("HTTPNoResponse means no data",
  "HTTPNoResponse is returned only if no data were received from the transport.",
  "every history","history property",a(H,"HTTPNoResponse")+a(C,"getFinalResponseStatus"))
p("End to end: a well-formed response is returned faithfully under every fragmentation",
  "With a parser implementing the HTTP/1.1 response grammar, for every well-formed response (Content-Length or chunked) and every fragmentation that fits the buffer, HTTPClient_Send returns HTTPSuccess with exactly the status code, headers and body of the response.",
  "every well-formed response, every fragmentation, every schedule of empty reads within the timeout","unbounded responses and schedules",a(C,"HTTPClient_Send","HTTPClient_ReceiveAndParseHttpResponse"))
p("Receive terminates",
  "With an advancing clock (as in C16) HTTPClient_ReceiveAndParseHttpResponse makes at most bufferLen*(timeout+1)+timeout+1 recv calls; without a clock at most bufferLen+1.",
  "every transport and parser behaviour","liveness over unbounded schedules",a(C,"HTTPClient_ReceiveAndParseHttpResponse"))
p("Trailer fields of a chunked response are delivered",
  "Header fields in the trailer section of a chunked response are delivered to the header callback like other headers.",
  "every trailer section","all responses",a(C,"httpParserOnMessageCompleteCallback","processCompleteHeader"))
p("Reserving HTTP_MAX_CONTENT_LENGTH_HEADER_LENGTH bytes is enough for Content-Length",
  "If the request buffer has HTTP_MAX_CONTENT_LENGTH_HEADER_LENGTH bytes left after the request, HTTPClient_Send never fails with HTTPInsufficientMemory because of the Content-Length header it adds.",
  "every request and body length","all body lengths",a(H,"HTTP_MAX_CONTENT_LENGTH_HEADER_LENGTH")+a(C,"addContentLengthHeader"))
p("ReadHeader on a well-formed header section",
  "If the response buffer begins with a well-formed HTTP/1.1 header section, HTTPClient_ReadHeader for a name that occurs in it returns HTTPSuccess with the exact location and length of the value of the first header with that name, whatever bytes follow the header section; for a name that does not occur it returns HTTPHeaderNotFound if the buffer ends with the header section and HTTPInvalidResponse if a byte other than CR, LF or 'H' follows.",
  "every well-formed header section, every following content, every name","all header sections and names",a(C,"HTTPClient_ReadHeader","findHeaderInResponse","findHeaderOnHeaderCompleteCallback"))
p("HTTPClient_Send is memory safe and fails no assertion",
  "For valid arguments HTTPClient_Send never reads or writes outside the request buffer, the body and the response buffer, changes nothing outside the request and response buffers, fails no assertion and has no undefined behaviour, whatever the transport (within its contract) and the parser (within its contract) do and wherever the buffers lie; it leaves the request structure on its buffer with headersLen within bufferLen, and every recv is offered a non-empty part of the response buffer.",
  "every valid call, every transport and parser behaviour, every placement of the buffers","all behaviours of the environment",a(C,"HTTPClient_Send","sendHttpRequest","HTTPClient_ReceiveAndParseHttpResponse"))
p("HTTPClient_Send terminates",
  "With an advancing clock every call of HTTPClient_Send with valid arguments returns, after at most (bufferLen+bodyLen+2)*(sendTimeout+1) send calls and (responseBufferLen+1)*(recvTimeout+1) recv calls; without a clock after at most bufferLen+bodyLen+2 send calls and responseBufferLen+1 recv calls.",
  "every valid call, every transport and parser behaviour","liveness over unbounded schedules",a(C,"HTTPClient_Send","HTTPClient_SendHttpData","HTTPClient_ReceiveAndParseHttpResponse"))
p("A whole exchange",
  "HTTPClient_Send sends the request headers (with Content-Length when asked for) and the body and then behaves as HTTPClient_ReceiveAndParseHttpResponse; if a well-formed response that fits arrives, in any fragmentation, the result is HTTPSuccess with exactly that response, and if the request was not sent completely nothing is received and the status is HTTPNetworkError or HTTPInsufficientMemory.  If the transport takes at least one byte of every send and delivers the whole response with pauses shorter than the timeout, the call succeeds.",
  "every request, body, option word, well-formed response, fragmentation and schedule","unbounded exchanges",a(C,"HTTPClient_Send","sendHttpRequest","HTTPClient_ReceiveAndParseHttpResponse"))
p("What a rejected header leaves behind, exactly",
  "When HTTPClient_AddHeader rejects a header because of an illegal character, the structure is unchanged and the only bytes changed are those from the end of the last header line on: they now hold the part of the rejected line that precedes the illegal character. The text of the request is then its header lines followed by the overwritten bytes (cut at headersLen); the next header added is glued to them (its name gets the first two characters of the rejected name in front). An application that takes 2 off headersLen after a rejection gets an intact request with the next header it adds.",
  "every request, every header with an illegal character","all requests and headers",a(C,"HTTPClient_AddHeader","addHeader","httpHeaderStrncpy"))
p("Content-Length for every size of body, exactly",
  "HTTPClient_SendHttpHeaders with any body length: with v the value of the low 32 bits as a signed number, v = -2^31 is undefined behaviour (signed overflow), v <= -10^9 writes outside an array, and otherwise the header written is 'Content-Length: ' and v in decimal (negative if v is), and the headers are sent.",
  "every body length, request, transport behaviour","all lengths",a(C,"HTTPClient_SendHttpHeaders","addContentLengthHeader","convertInt32ToAscii"))
p("Every request that fits can be built",
  "For every initialisation and list of headers and ranges with legal arguments, all calls return HTTPSuccess if and only if the text of the whole request fits the buffer, and then the buffer holds exactly that text.",
  "every list of calls","unbounded histories",a(C,"HTTPClient_InitializeRequestHeaders","HTTPClient_AddHeader","HTTPClient_AddRangeHeader"))
p("A server reads what the application asked for",
  "A server that reads the bytes HTTPClient_Send put on the wire, by an independent reader of the HTTP/1.1 request grammar, gets the request line, exactly the headers added plus Content-Length, and exactly the body; no bytes are left over.",
  "every request with legal headers, every body, every transport behaviour","all requests and schedules",a(C,"HTTPClient_Send","sendHttpRequest"))
p("A request structure sent several times, exactly",
  "After HTTPClient_Send the request structure holds the request with the Content-Length header it added; in a series of calls with one structure every call puts on the wire the original headers and the Content-Length headers of all calls up to it, then its own body; a call whose headers do not fit changes nothing. So a request sent twice with a body carries two Content-Length headers.",
  "every series of calls, every transport and parser behaviour","unbounded histories",a(C,"HTTPClient_Send","addContentLengthHeader"))
p("The status of a response, exactly",
  "The status of HTTPClient_ReceiveAndParseHttpResponse is decided by what the transport and the parser did and nothing else: HTTPNetworkError iff the last recv failed, the parser's error if the last parser call ended in one, otherwise by whether no message began, one is complete, or one has begun (then HTTPSuccess with the do-not-parse-body flag, else HTTPInsufficientMemory if the buffer is full and HTTPPartialResponse if not). With the do-not-parse-body flag HTTPSuccess means that some message began, and an application that set areHeadersComplete to 0 sees by it whether the headers were complete.",
  "every transport and parser behaviour, both settings of the flag","unbounded schedules",a(C,"HTTPClient_ReceiveAndParseHttpResponse","getFinalResponseStatus","processLlhttpError"))
p("A receive timeout, exactly",
  "If the last recv of a call returned no data, the buffer was not full, the clock (if there is one) then showed that at least the receive timeout had passed since the last data, the parser was told that the data ended, and the status is HTTPNoResponse, HTTPSuccess (the end of the data completes the response, or do-not-parse-body) or HTTPPartialResponse according to what had begun, or the parser's error.",
  "every schedule","unbounded schedules",a(C,"HTTPClient_ReceiveAndParseHttpResponse"))
p("Which requests are taken for HEAD requests, exactly",
  "Without the do-not-parse-body flag the parser is told that the response has no body if and only if the first four bytes of the request are 'HEAD' (so also for a method like 'HEADER'), and then no body is reported.",
  "every request, transport and parser behaviour","all requests",a(C,"httpParserOnHeadersCompleteCallback","HTTPClient_ReceiveAndParseHttpResponse"))
p("Every field of the response structure, exactly",
  "After a call in which something was received or that did not fail in the transport, every field of the response structure is determined by the structure before and by what the parser reported: the application's fields unchanged, areHeadersComplete and contentLength unchanged unless the headers were complete, all others from this response alone. After a transport failure before any data the structure is unchanged.",
  "every structure before the call, every transport and parser behaviour","all behaviours of the environment",a(C,"HTTPClient_ReceiveAndParseHttpResponse","httpParserOnHeadersCompleteCallback","initializeParsingContextForFirstResponse"))
p("Many requests on one connection",
  "Any number of HTTPClient_Send calls on one connection, with any requests, bodies, buffers and structures (the application may change its memory between the calls as it likes): if the server answers each with a well-formed response that fits, the responses arriving one after the other in any pieces and with pauses shorter than the timeout, then every call returns HTTPSuccess, the server receives exactly the requests in order, every call gives exactly its own response, and no call asks the transport for anything after the last piece of its response, so no byte of the next response is taken.",
  "every list of requests and responses, every fragmentation, every parser that reads HTTP/1.1","unbounded histories and fragmentations",a(C,"HTTPClient_Send","HTTPClient_ReceiveAndParseHttpResponse","sendHttpRequest"))
p("HTTPClient_ReadHeader is safe on any buffer",
  "Whatever bytes the response buffer holds and whatever the parser makes of them, HTTPClient_ReadHeader with a non-empty name returns without undefined behaviour or failed assertion; it returns HTTPSuccess with a value that lies inside the response buffer (or NULL and length 0 for an empty value), or HTTPHeaderNotFound or HTTPInvalidResponse and then sets no output.",
  "every buffer content, name and parser","all buffer contents",a(C,"HTTPClient_ReadHeader","findHeaderInResponse","findHeaderFieldParserCallback","findHeaderValueParserCallback"))
p("Any use of the interface is safe and ends",
  "After any history of calls of the interface (initialise, add header, add range, send, send headers, send data, receive, read header) and of writes by the application to its own memory, in any order, with any results, and whether or not earlier calls failed: the next call with valid arguments has no undefined behaviour, violates no assertion, changes no byte of memory outside the two buffers, and returns if the clock advances; the structures still describe the same buffers, and the request length stays within the request buffer.",
  "every history of calls, every transport, clock and parser behaviour","unbounded histories of the whole interface",a(C,"HTTPClient_InitializeRequestHeaders","HTTPClient_AddHeader","HTTPClient_AddRangeHeader","HTTPClient_Send","HTTPClient_SendHttpHeaders","HTTPClient_SendHttpData","HTTPClient_ReceiveAndParseHttpResponse","HTTPClient_ReadHeader"))
p("Which requests a server reads back, exactly",
  "After a successful HTTPClient_InitializeRequestHeaders, a strict reader of the HTTP/1.1 request grammar (lines end in CRLF, no stray CR or LF) reads from the buffer exactly 'method path HTTP/1.1' and the headers User-Agent (unless the flags suppress it), Host (and Connection: keep-alive if asked) if and only if neither the method nor the path contains CR or LF.",
  "every request, method, path and host","all arguments",a(C,"HTTPClient_InitializeRequestHeaders","writeRequestLine"))
p("Adding a header of any length, exactly",
  "HTTPClient_AddHeader with lengths up to SIZE_MAX: with s the length the request would have with the new header, if s fits the buffer the header is added; otherwise, if s modulo SIZE_MAX+1 is larger than the buffer the result is HTTPInsufficientMemory and nothing changes; otherwise the call writes behind the end of the buffer.",
  "every request and every length of the name and value up to SIZE_MAX","all lengths",a(C,"HTTPClient_AddHeader","addHeader"))
p("Calling without a clock, exactly",
  "HTTPClient_ReceiveAndParseHttpResponse with a response structure without a clock always calls a NULL function pointer, before anything is received; HTTPClient_Send without a clock does exactly what it does with a clock that stands still at 0.",
  "every call","all arguments and behaviours of the environment",a(C,"HTTPClient_ReceiveAndParseHttpResponse","HTTPClient_Send"))
p("The space Content-Length needs, exactly",
  "HTTPClient_SendHttpHeaders with a body of len bytes (at most INT32_MAX) and automatic Content-Length returns HTTPInsufficientMemory if and only if the buffer has less than 18 bytes plus the number of decimal digits of len left behind the request; so a buffer with HTTP_MAX_CONTENT_LENGTH_HEADER_LENGTH spare bytes is enough exactly for bodies of less than 100000000 bytes.",
  "every request, buffer size and body length","all lengths",a(C,"HTTPClient_SendHttpHeaders","addContentLengthHeader","HTTP_MAX_CONTENT_LENGTH_HEADER_LENGTH"))
p("The result does not depend on how the network cuts the data, for any data",
  "Two calls of HTTPClient_ReceiveAndParseHttpResponse (without the do-not-parse-body flag) that receive the same bytes - well-formed HTTP or not, complete or not - in different pieces, with different pauses, into buffers of the same size or of different sizes that the data do not fill, return the same status, status code, flags, areHeadersComplete, contentLength, body bytes at the same place; the same number of headers, beginning at the same place, with the same callbacks, unless the data were rejected as not HTTP: then the last callback may be missing in one of the calls.",
  "all data, all ways to cut them, every transport and clock; every parser whose answer to the data does not depend on the cuts, which is proved of a reference parser","unbounded data and fragmentations",a(C,"HTTPClient_ReceiveAndParseHttpResponse","parseHttpResponse","httpParserOnHeaderFieldCallback","httpParserOnHeaderValueCallback","httpParserOnBodyCallback"))
p("What the header callback is given, exactly",
  "The header callback is called for exactly the headers the parser finished, in order; for each it is given the status code, and as many bytes as the name (value) has, read from the received data from the place where the first piece of the name (value) begins. So it sees the header's own name and value exactly when their pieces lie behind each other in the data, which a folded value does not.",
  "all received data, every fragmentation, transport and parser behaviour","all data and behaviours of the environment",a(C,"httpParserOnHeaderFieldCallback","httpParserOnHeaderValueCallback","processCompleteHeader"))
p("Receiving a response without parsing its body",
  "HTTPClient_ReceiveAndParseHttpResponse with HTTP_RESPONSE_DO_NOT_PARSE_BODY_FLAG: if the data begin with the header section of an HTTP/1.1 response, cut into any pieces and followed by anything, the call returns HTTPSuccess with the status code, headers, header count, content length, connection flags of that header section; pBody points directly behind it and holds, unchanged, exactly the data that came in the same read as its end, and nothing is read after that. If only a part of a header section came, the call returns HTTPNetworkError if recv failed, HTTPNoResponse if nothing came, and otherwise HTTPSuccess, but without setting areHeadersComplete.",
  "every well-formed header section, everything behind it, every fragmentation, every parser that reads header sections, which is proved of a reference parser","unbounded data and fragmentations",a(C,"HTTPClient_ReceiveAndParseHttpResponse","httpParserOnHeadersCompleteCallback","parseHttpResponse","getFinalResponseStatus"))
p("Where the header lines lie, exactly",
  "After HTTPClient_ReceiveAndParseHttpResponse returned HTTPSuccess for a well-formed HTTP/1.1 response, pHeaders points to the first byte behind the status line (NULL without headers), and headersLen is the length of the header lines without the line end of the last one, plus the number of bytes of the final CR LF CR LF that came in an earlier read than the last of them: exact if no read ends inside these four bytes, and never more than three too many. The buffer holds exactly these bytes there.",
  "every well-formed response, every fragmentation, transport and clock; every parser that reads HTTP and tells the places of names and values, which is proved of a reference parser","unbounded data and fragmentations",a(C,"HTTPClient_ReceiveAndParseHttpResponse","httpParserOnHeaderFieldCallback","httpParserOnHeaderValueCallback","httpParserOnHeadersCompleteCallback","parseHttpResponse"))
p("HTTPNoResponse, exactly",
  "HTTPClient_ReceiveAndParseHttpResponse (with or without the do-not-parse-body flag) returns HTTPNoResponse if and only if no recv failed and everything received, in whatever pieces, was CR and LF bytes (or nothing).",
  "all received data, every fragmentation, transport and clock; every parser that skips line ends before a message and nothing else, which is proved of a reference parser","unbounded data and fragmentations",a(C,"HTTPClient_ReceiveAndParseHttpResponse","getFinalResponseStatus"))
p("HTTPClient_ReadHeader on a header section, exactly",
  "If the response buffer begins with the header section of an HTTP/1.1 response, whatever follows it, HTTPClient_ReadHeader finds for a name the value of the first header of that name, at its place in the buffer; after a successful receive (with or without parsing the body) that is the value the header callback was given. If no header has that name: with nothing behind the section HTTPHeaderNotFound; otherwise HTTPInvalidResponse, or exactly the result the call would have given had the buffer begun behind the header section.",
  "every header section, everything behind it, every name; every parser that reads header sections in one call, which is proved of a reference parser","all buffer contents",a(C,"HTTPClient_ReadHeader","findHeaderInResponse","findHeaderFieldParserCallback","findHeaderValueParserCallback","findHeaderOnHeaderCompleteCallback"))
p("Several responses received by one call, exactly",
  "If the data HTTPClient_ReceiveAndParseHttpResponse (without the do-not-parse-body flag) receives are the beginning of a series of well-formed responses that end without the connection being closed (for instance a 100 Continue and the answer proper), in any pieces: if a read ends exactly at the end of a response, the call ends there with HTTPSuccess, the status code and content length of that last response, and the headers, header count, connection flags and bodies of all responses so far put together; if the data end inside a response, it returns HTTPNetworkError if recv failed, HTTPInsufficientMemory if the buffer is full, HTTPPartialResponse otherwise; if nothing came, HTTPNetworkError or HTTPNoResponse. Only if one of the earlier responses said that the connection is to be closed (Connection: close, or HTTP/1.0) may the data be rejected as not HTTP instead.",
  "every series of well-formed responses, every fragmentation, transport and clock; every parser that takes what follows a response for the next one, which is proved of a reference parser","unbounded data and fragmentations",a(C,"HTTPClient_ReceiveAndParseHttpResponse","httpParserOnMessageBeginCallback","httpParserOnMessageCompleteCallback","parseHttpResponse","getFinalResponseStatus"))
p("What the response buffer holds, exactly",
  "When HTTPClient_ReceiveAndParseHttpResponse has returned (with any status), every byte it received is in the response buffer, unchanged and at the place where it was received, except inside the body it put together (pBody, bodyLen); with the do-not-parse-body flag all of it is.",
  "all received data, every fragmentation, transport, clock and parser behaviour","unbounded data; whatever the environment does",a(C,"HTTPClient_ReceiveAndParseHttpResponse","httpParserOnBodyCallback","receiveAndParseHttpResponse"))
p("The pointers given to the header callback",
  "Every pointer HTTPClient_ReceiveAndParseHttpResponse gives to the header callback points into the response buffer, to where the name or value of the given length was received, and there the callback reads what was received. When the call has returned, the text is still there if it does not overlap the body; and it never overlaps the body unless a second header section (a second response in the same call) was received, so an application may keep the pointers and use them after the call.",
  "all received data, every fragmentation, transport, clock and parser behaviour; trailers included","unbounded data; whatever the environment does",a(C,"HTTPClient_ReceiveAndParseHttpResponse","processCompleteHeader","httpParserOnBodyCallback"))
p("Only differences of clock readings matter",
  "If the application's clock is shifted by any number of milliseconds (so that it wraps around at another moment, or during the call), HTTPClient_Send, HTTPClient_SendHttpHeaders, HTTPClient_SendHttpData and HTTPClient_ReceiveAndParseHttpResponse return the same, leave the same in memory and make the same calls of transport, parser, header callback and clock, with the same arguments and in the same order.",
  "every shift, clock, transport, parser, configuration, argument and state of memory","every clock value, including those around the 32-bit wrap-around, at every call",a(C,"HTTPClient_Send","HTTPClient_SendHttpData","HTTPClient_SendHttpHeaders","HTTPClient_ReceiveAndParseHttpResponse"))
p("The whole memory after a call, exactly",
  "HTTPClient_ReceiveAndParseHttpResponse changes nothing in memory but the front of the response buffer, as many bytes as were received: these are afterwards the received data with the body put together in place (the pieces of the body behind each other from pBody on). HTTPClient_Send in addition only writes the header block it sends over the request headers; if that does not fit into the request buffer, memory is unchanged.",
  "every byte of memory; all received data, every fragmentation, transport, clock and parser behaviour; every request, flags and body length","all memory and data; whatever the environment does",a(C,"HTTPClient_Send","HTTPClient_SendHttpHeaders","HTTPClient_ReceiveAndParseHttpResponse","httpParserOnBodyCallback"))
p("A larger request buffer changes nothing",
  "A sequence of HTTPClient_InitializeRequestHeaders, HTTPClient_AddHeader and HTTPClient_AddRangeHeader calls none of which returned HTTPInsufficientMemory returns the same, and leaves the same memory and the same request structure, if bufferLen is larger; and so does HTTPClient_Send, with the same calls of the transport, if the header block fits into the smaller buffer. So an application can size its buffer by trying.",
  "every sequence of calls with any arguments, every state of memory, every larger buffer; every transport, clock and parser for HTTPClient_Send","unbounded sequences, all arguments",a(C,"HTTPClient_InitializeRequestHeaders","HTTPClient_AddHeader","HTTPClient_AddRangeHeader","HTTPClient_Send","HTTPClient_SendHttpHeaders"))
p("Tasks that do not write what another reads do not disturb each other",
  "Several tasks may use the library at the same time: if each has its own structures, request and response buffers and connection, and no task writes to memory another one reads (read-only data, such as header names and values, paths and bodies, may be shared), then each gets exactly the results it would have got alone, makes the same transport, clock, parser and header-callback calls in the same order with the same arguments, and finds the same in its memory when it ends, whatever the other tasks do meanwhile; and at every moment the calls it has made so far are the beginning of those it makes alone. The library keeps no state of its own between or during calls.",
  "any number of tasks, any lists of library calls with any arguments inside the memory objects the task may read (its buffers inside those it may write), every schedule, switching tasks after any single byte read from or written to memory, wherever the library calls out (transport, clock, parser, header callback), and between calls; any change by anybody else to memory none of the tasks reads; every transport, clock and parser","every interleaving of any number of tasks",a(C,"HTTPClient_InitializeRequestHeaders","HTTPClient_AddHeader","HTTPClient_AddRangeHeader","HTTPClient_Send","HTTPClient_SendHttpHeaders","HTTPClient_SendHttpData","HTTPClient_ReceiveAndParseHttpResponse","HTTPClient_ReadHeader"))
p("A body can be sent in pieces",
  "HTTPClient_Send with a clock is exactly HTTPClient_SendHttpHeaders, HTTPClient_SendHttpData for the body (if there is one) and HTTPClient_ReceiveAndParseHttpResponse, one after the other until one fails: same status, structures, memory and calls of the transport. If instead the body is sent by any number of HTTPClient_SendHttpData calls, each with a piece of it (also empty ones, from anywhere in memory), the transport gets the same bytes, the header block with the announced length and then the pieces; a failing call leaves a proper beginning of that sent and nothing received; and the answer returned is the same however the body and the answer are cut.",
  "every request, body, division into pieces, flags, transport, clock, memory and parser (for the last part: every parser whose answer does not depend on cuts, which is proved of a reference parser)","unbounded bodies and divisions; whatever the transport does",a(C,"HTTPClient_Send","HTTPClient_SendHttpHeaders","HTTPClient_SendHttpData","HTTPClient_ReceiveAndParseHttpResponse","sendHttpRequest","sendHttpBody"))
p("A transport that claims to have sent more than it was offered is caught",
  "Whatever send returns (also more than it was offered, which the transport interface forbids): HTTPClient_SendHttpData and HTTPClient_Send never read outside the data to be sent; a claim of more bytes than were offered fails an assertion at once, nothing else does, and a call that returns or goes on has seen no such claim.",
  "every return value of send at every call, all data, clocks, timeouts, requests, memory","whatever a wrong transport does",a(C,"HTTPClient_SendHttpData","HTTPClient_Send"))
p("A transport that claims to have received more than there was room for is caught",
  "Whatever recv returns (also more than the room it was offered, which the transport interface forbids; it writes inside the room only): HTTPClient_ReceiveAndParseHttpResponse reads nothing outside the response buffer and never returns HTTPSuccess, HTTPPartialResponse, HTTPNoResponse or HTTPInsufficientMemory after such a claim.",
  "every return value of recv at every call, all data, fragmentations, clocks, parsers, memory","whatever a wrong transport does",a(C,"HTTPClient_ReceiveAndParseHttpResponse","getFinalResponseStatus","parseHttpResponse"))
p("A header may be made of the request's own text",
  "The field and the value given to HTTPClient_AddHeader may point into the request buffer itself, to any text without line ends (and, for a field, without a colon) inside the request built so far: the call then does what it does for arguments kept elsewhere. It adds exactly the line of that field and value if the line fits, and returns HTTPInsufficientMemory and changes nothing otherwise.",
  "every request, every field and value in the written part of the buffer or outside the buffer, every buffer size","every position and length of overlapping arguments",a(C,"HTTPClient_AddHeader","addHeader","httpHeaderStrncpy"))
p("How long a call can take",
  "If between two readings of the application's clock never more than D ms pass (that is, no single call of the transport together with the work around it takes longer), then from its first to its last reading of the clock a call takes at most T + D ms more than T + D ms for every call of the transport that moved data, T being the configured timeout: HTTPClient_SendHttpData at most (k+1)(T+D), k(T+D) if it succeeds, with k at most the length of the data; HTTPClient_ReceiveAndParseHttpResponse at most (k+1)(T+D), with k at most the size of the response buffer; HTTPClient_Send at most (k+1)(T+D) + 2D, T being the larger of the two timeouts and k at most the sizes of the two buffers and of the body together. In particular with a peer that says nothing a call does not take longer than the timeout plus D. The bounds hold at every moment of a call that is still running, and across wrap-arounds of the 32-bit clock.",
  "every transport, clock (with steps of at most D ms), parser, data, memory, and every moment of a call","every sequence of clock readings and transport behaviours",a(C,"HTTPClient_Send","HTTPClient_SendHttpData","HTTPClient_ReceiveAndParseHttpResponse"))
p("The width of size_t makes no difference",
  "On platforms with size_t of different widths but the same configuration, the same calls do the same, as long as the sizes involved (buffer plus arguments plus the fixed text) can be represented on both: HTTPClient_InitializeRequestHeaders, HTTPClient_AddHeader and HTTPClient_AddRangeHeader, in any sequence, return the same and leave the same request; HTTPClient_SendHttpHeaders, HTTPClient_SendHttpData, HTTPClient_ReceiveAndParseHttpResponse and HTTPClient_Send return the same status, make the same calls of transport, clock, parser and header callback with the same arguments, and leave the same memory and the same response structure. The only exception is contentLength, when the Content-Length in the response does not fit into the narrower size_t.",
  "any two widths of at least 16 bits; every sequence of calls with any arguments, every transport, clock, parser and state of memory","every width and every input; tests run on one platform",a(C,"HTTPClient_InitializeRequestHeaders","HTTPClient_AddHeader","HTTPClient_AddRangeHeader","HTTPClient_Send","HTTPClient_SendHttpHeaders","HTTPClient_SendHttpData","HTTPClient_ReceiveAndParseHttpResponse"))
p("The answer HTTPClient_Send returns, exactly",
  "Once HTTPClient_Send has sent the request and asked the transport for an answer, its status, every field of the response structure, what it leaves in the response buffer and what it gives to the header callback depend on the answer exactly as for HTTPClient_ReceiveAndParseHttpResponse: the status follows from the data, the parser and the transport (C56); the structure is that of the answer (C59), and unchanged but for the clock if there was none; the callback gets the text of each header (C68) and pointers into the buffer (C75); the buffer holds the data (C74); a request beginning with HEAD is answered without a body (C58); with the do-not-parse-body flag headers and raw body are returned (C69); the header lines lie where C70 says; HTTPNoResponse means nothing but line ends came (C71); HTTPClient_ReadHeader then finds each header (C72); several responses received at once are treated as C73 says; and how the network cuts the data makes no difference, nor do the places and lengths of the requests (C67).",
  "every request, body, flags, transport, clock, memory and answer; every parser (for well-formed responses: every parser that reads them, which is proved of a reference parser)","unbounded data, every fragmentation; whatever transport, clock and server do",a(C,"HTTPClient_Send","HTTPClient_ReceiveAndParseHttpResponse","HTTPClient_ReadHeader"))
p("A call abandoned at any point",
  "If the task that builds or sends a request is stopped for good at any moment of a call (killed, or abandoned after a fault handler), what it leaves behind is known and usable. While HTTPClient_AddHeader or HTTPClient_AddRangeHeader runs, the request built so far, but for its blank line, is intact, and after it there is a beginning of the text the call would have written; headersLen set back to the end of it, the request is one that headers can be added to, and the same call made again gives what it would have given the first time. HTTPClient_InitializeRequestHeaders called again after it was abandoned gives what it would have given, without any setting back. While HTTPClient_Send runs, the server has been given a beginning of the request, all of it before anything of the response is asked for; and in every call the transport, clock, parser and header callback have been called as in a beginning of the complete call, and memory the call may not change is untouched.",
  "every moment of every call (after any single byte read from or written to memory, and after any call of the transport, clock, parser or header callback), every argument, request, buffer size, transport, clock and parser that would return if it were left alone (with a clock that advances every call does)","every crash point of every execution",a(C,"HTTPClient_InitializeRequestHeaders","HTTPClient_AddHeader","HTTPClient_AddRangeHeader","HTTPClient_Send","addHeader","addRangeHeader","writeRequestLine","HTTPClient_SendHttpHeaders","HTTPClient_SendHttpData","HTTPClient_ReceiveAndParseHttpResponse"))
p("Building a request depends on the texts alone",
  "What a series of calls of HTTPClient_InitializeRequestHeaders, HTTPClient_AddHeader and HTTPClient_AddRangeHeader does - every status, headersLen, every byte of the buffer that is written - is given by the texts asked for, the request so far and the size of the buffer alone, step by step, failing calls and what they leave behind included; every call with usable arguments is covered. So two applications that ask for the same texts, starting with HTTPClient_InitializeRequestHeaders, get the same statuses and the same request, whatever the buffers, structures and memories held before and wherever the arguments are; and the exchanges that follow, with the same transport, are alike. In particular an application that starts over in a buffer left by an abandoned or failed exchange does as well as in a new one.",
  "every series of calls of any length, valid or invalid, successful or failing, every content of the memory, the buffer and headersLen, every place of the arguments, every size, transport, clock, parser and body","every sequence of calls and every initial content of the memory",a(C,"HTTPClient_InitializeRequestHeaders","HTTPClient_AddHeader","HTTPClient_AddRangeHeader","addHeader","addRangeHeader","writeRequestLine","httpHeaderStrncpy","HTTPClient_Send"))
p("Where the body of a request may lie, exactly",
  "The body given to HTTPClient_Send may lie anywhere in the application's memory, also in the request buffer or in the response buffer. The bytes sent as body are those that stand there when the header block, with the Content-Length line the call adds, is in the request buffer: where the body overlaps that block, the bytes of the block; elsewhere the application's. So the body goes out as it was written if it keeps clear of the place from the end of the last header line to the end of the header block, and always if the Content-Length line is disabled; but a body placed right behind the request in its buffer is sent damaged, with HTTPSuccess. In every case the call is exactly the one made with a body elsewhere in memory that holds the bytes sent: same status, structures, memory and calls of the transport, and no undefined behaviour.",
  "every place and length of the body, every request, buffer, flags, transport, clock, parser and response",
  "tests keep the body in an array of its own",
  a(C,"HTTPClient_Send","HTTPClient_SendHttpHeaders","addContentLengthHeader","sendHttpBody","HTTPClient_SendHttpData"))
p("A slow network that does its part is enough",
  "A network that is slow, but neither fails nor falls silent for as long as the timeouts, never makes a call fail. Suppose the transport's send never fails and returns 0 for the same data at most z times in a row, the response arrives in pieces of which at most z in a row are empty, between two readings of the clock at most D ms pass, and z*D is less than both timeouts. Then HTTPClient_SendHttpData sends all its data and returns HTTPSuccess, and HTTPClient_Send, with a request and body that fit, a complete well-formed response that fits and parsing of the body left on, returns HTTPSuccess, has sent exactly the request and the body and gives exactly the response: however long the exchange takes as a whole, however little every call of the transport moves, and also when the 32-bit clock wraps around. It does so with at most z+1 calls of send for each byte of the request buffer and the body, and one call of recv for each piece. If the body lasts until the connection is closed the same holds when the response leaves room in the buffer and the transport is silent after it (with a clock that advances): the call waits for the timeout, then returns HTTPSuccess with the whole body.",
  "every transport and clock that meets the bounds, every z and D, every request, body, response, fragmentation and buffer size, and every parser that reads well-formed responses","every schedule of partial sends, empty sends, empty reads and clock readings",
  a(C,"HTTPClient_Send","HTTPClient_SendHttpData","HTTPClient_ReceiveAndParseHttpResponse"))
p("A build without assertions does the same",
  "Compiled with NDEBUG, so that assert() does nothing, every call of the interface that returns in a build with assertions, or goes on, does exactly the same: same result, memory, structures and calls of the transport, clock, parser and header callback. So with arguments, transport, clock and parser that keep their contracts the two builds do not differ at all, and every property proved of the one holds of the other. What assertions stop is not harmless without them: if the transport claims to have sent more than it was offered the call does not return (it is undefined behaviour), and if it claims to have received more than there was room for the call can return HTTPSuccess with a body that includes memory behind the response buffer.",
  "every function of the interface, every argument (NULL included), memory, transport, clock and parser","every call; tests and proofs for C code are usually run with assertions on",
  a(C,"HTTPClient_InitializeRequestHeaders","HTTPClient_AddHeader","HTTPClient_AddRangeHeader","HTTPClient_SendHttpData","HTTPClient_SendHttpHeaders","HTTPClient_ReceiveAndParseHttpResponse","HTTPClient_Send","HTTPClient_ReadHeader"))
p("Several responses to one request, one call for each",
  "A server may answer a request with several responses (103 Early Hints, 102 Processing, then the answer). If the transport delivers them in pieces none of which holds parts of two, HTTPClient_Send returns HTTPSuccess and gives the first one, and each further call of HTTPClient_ReceiveAndParseHttpResponse with the same transport, request and response structures, none of them touched in between, returns HTTPSuccess and gives exactly the next one - status code, headers, body, flags, nothing left over from the response before - and takes exactly its pieces from the transport. The request must lie apart from the response buffer, or begin where that begins and not be a HEAD request: with a HEAD request in the buffer of the response the first response overwrites the method, and the second call waits for a body that never comes (witness).",
  "any number of responses, every well-formed response whose end can be seen, every fragmentation, transport, clock, request, body, memory, and every parser that reads well-formed responses","any number of responses and every fragmentation; the mocks of the tests deliver one response for one call",
  a(C,"HTTPClient_Send","HTTPClient_ReceiveAndParseHttpResponse","initializeParsingContextForFirstResponse"))
p("Functions of the application that write memory of their own do no harm",
  "The transport's send and recv, the clock and the header callback may write to memory when they are called - log, count, copy headers, even change the request - as long as they leave alone what the library is using: while HTTPClient_SendHttpData runs the data being sent, while HTTPClient_ReceiveAndParseHttpResponse runs the response buffer, while HTTPClient_Send sends the request buffer, the body and the response buffer, and while it receives the response buffer only. The call then does the same as with functions that write nothing: the same calls of the application's functions with the same arguments, the same status and structures, the same content of the response buffer; and the rest of memory is what those functions, called in that order, made of it. What neither they nor the library use is unchanged.",
  "every behaviour of the application's functions that leaves those buffers alone, also depending on everything that happened before; every request, body, memory, transport, clock, parser and response","every possible write at every call; the tests' functions write nothing",
  a(C,"HTTPClient_Send","HTTPClient_SendHttpData","HTTPClient_ReceiveAndParseHttpResponse","processCompleteHeader")+a(T,"TransportRecv_t","TransportSend_t")+a(H,"HTTPClient_ResponseHeaderParsingCallback_t","HTTPClient_GetCurrentTimeFunc_t"))
p("Requests may be sent ahead of the responses",
  "With HTTPClient_SendHttpHeaders, HTTPClient_SendHttpData and HTTPClient_ReceiveAndParseHttpResponse requests can be pipelined: sent while earlier ones are unanswered, the responses fetched later, in any interleaving. If the transport takes what it is given and delivers well-formed responses whose ends can be seen and which fit, in pieces none of which holds parts of two, and each response is fetched with the request structure and buffer of its own request still saying the same about HEAD: every call returns HTTPSuccess; the bytes sent are exactly the header blocks and bodies in the order of the calls; each fetch takes exactly its own response, in the order in which they come, and gives exactly that, whatever was sent or fetched before and however many responses are outstanding. (Where a piece holds parts of two responses, see C41 and C73.)",
  "any number of requests and responses in any interleaving, every request, body, flags, clock, buffers and memory (changed by the application between the calls in any way), every well-formed response and fragmentation, and every parser that reads well-formed responses","any interleaving of any length; tests send one request and fetch one response",
  a(C,"HTTPClient_SendHttpHeaders","HTTPClient_SendHttpData","HTTPClient_ReceiveAndParseHttpResponse","addContentLengthHeader"))
p("Logging reads nothing that is not the application's and changes nothing",
  "A build with all the library's log messages switched on does, on every call of the interface, exactly what a build without them does: same result, memory, structures and calls of the application's functions. To print its texts it reads no memory but the header name and value or the host name the application passed (HTTPClient_AddHeader, HTTPClient_InitializeRequestHeaders, HTTPClient_ReadHeader) and the response buffer (HTTPClient_Send, HTTPClient_ReadHeader), never beyond them, whatever is received and however it is cut into pieces. This supposes that the texts and the response buffer are at most INT32_MAX bytes long, that the parser has an error reason (not NULL) after every call (HTTPClient_ReadHeader asks for one only when it reports an error), and that HTTPClient_ReadHeader does not find an empty value. Each of these is needed: a text of 2^31 bytes or more is read on beyond its end, and after a call without error the parser's reason is NULL if llhttp_init leaves it so, and so is the location of an empty value; both are then printed as strings, which is undefined behaviour where the same call without logging succeeds.",
  "every function of the interface that prints a text, every argument, memory, transport, clock, conforming parser, response, fragmentation, and every choice of what the logger may read that includes those texts","every response and fragmentation; the tests run with logging to the terminal, short texts and a mock of the parser's error reason",
  a(C,"HTTPClient_InitializeRequestHeaders","HTTPClient_AddHeader","HTTPClient_AddRangeHeader","HTTPClient_Send","HTTPClient_ReceiveAndParseHttpResponse","HTTPClient_ReadHeader","httpHeaderStrncpy","processCompleteHeader","processLlhttpError","findHeaderInResponse"))
p("A file can be downloaded in ranges",
  "An application downloads a file piece by piece: for each piece HTTPClient_InitializeRequestHeaders, HTTPClient_AddRangeHeader with the piece's first and last byte, HTTPClient_Send; it stops if a call fails or the answer is not a 206 with as many bytes as the piece, and otherwise copies the response's body. This never is undefined behaviour and the structures can be used for the next piece, whatever transport, clock and parser do within their contracts; and with a clock that advances, or without one, it comes to an end, with a number of calls of the transport bounded by the number of pieces, the sizes and the timeouts. A server reads from what was sent exactly one request per piece, with one Range header that names the piece. If what the transport delivers at any time is the beginning of the answers of a well-behaved server to the requests sent by then - the connection may fail, stall or be cut at any point - the application ends up with exactly the file or gives up, never with wrong bytes. If moreover the transport takes and delivers the data in time and the buffers are large enough, it gets the file.",
  "every file up to 2^31 bytes and every division into pieces, every host and path without CR and LF, every request and response buffer (also one for both), every transport and clock (also adversarial), every fragmentation, every well-behaved server, and every parser that reads well-formed responses","any number of requests, every fragmentation and every point of failure; the tests send no range request",
  a(C,"HTTPClient_InitializeRequestHeaders","HTTPClient_AddRangeHeader","HTTPClient_Send"))
p("A failed request can be sent again",
  "An application builds a request (HTTPClient_InitializeRequestHeaders, then HTTPClient_AddHeader and HTTPClient_AddRangeHeader), sends it with HTTPClient_Send, and if the call fails builds it anew with the same structures and buffers and sends it on a new connection, until a call succeeds or there is no connection left. This never is undefined behaviour, whatever transports, clocks and parser do within their contracts, and only the two buffers change; with clocks that advance, or without, it comes to an end. Each connection is sent the request once or the beginning of it, and nothing else: nothing of an earlier attempt is left in it. If each connection delivers only the answer of a server to what was sent on this connection, or the beginning of it - it may fail, stall or be cut at any point - a success is the server's whole answer to the whole request, received on the last connection used. If the request and the answer fit, one connection that takes and delivers the data in time is enough.",
  "every number of attempts, every request (with body and flags; for what a server makes of it, without the flag that leaves out the Content-Length header), every transport and clock (also adversarial), every fragmentation and point of failure, every well-behaved server whose answers have an end that can be seen, and every parser that reads well-formed responses","any number of attempts, each failing at any point; the tests send a request once",
  a(C,"HTTPClient_Send","HTTPClient_InitializeRequestHeaders","HTTPClient_AddHeader","HTTPClient_AddRangeHeader","addContentLengthHeader"))
p("An interrupted download can be resumed",
  "An application downloads a file in ranges (as in C96) and, when a piece fails - a call fails, or the answer is not a 206 with as many bytes as the piece - goes on on a new connection with the piece that failed, using the same structures and buffers, until it has all pieces or there is no connection left. This never is undefined behaviour, whatever transports, clocks and parser do within their contracts; only the two buffers change; and with clocks that advance, or without, it comes to an end. What is sent on each connection is a beginning of the requests for the pieces the application does not have yet, each once and in their order: no piece is asked for again once the application has it, and nothing of a failed attempt is left in a request. If each connection delivers only a beginning of the server's answers to what was sent on this connection - it may fail, stall or be cut at any point - what the application has is at every time the beginning of the file, of just the length of the pieces it counts as received, and the whole file when no piece is left. And after any number of broken connections, one more that takes and delivers the data in time is enough for the rest.",
  "every number of connections and every point of failure of each; every file up to 2^31 bytes and every division into pieces, every host and path without CR and LF, every request and response buffer (also one for both), every transport and clock (also adversarial), every fragmentation, every well-behaved server, and every parser that reads well-formed responses","any number of connections, requests, fragmentations and points of failure; the tests send no range request and never use a structure again after a failure",
  a(C,"HTTPClient_InitializeRequestHeaders","HTTPClient_AddRangeHeader","HTTPClient_Send"))
p("A file's size can be asked for, and the file then downloaded",
  "An application asks for the size of a file with a HEAD request, sending it anew on a new connection while calls fail (as in C97); when the answer's status code is 200 it takes the response structure's content length for the size and downloads the file in pieces of its choice, on as many connections as it takes (as in C98), with the same structures and buffers. This never is undefined behaviour, whatever transports, clocks and parser do within their contracts; only the two buffers change; and with clocks that advance, or without, it comes to an end. If every connection delivers only a beginning of the answers of a well-behaved server to what was sent on it - each may fail, stall or be cut at any point - and the server's answers to HEAD give the length of the file, what the application has is a beginning of the file, and the whole file when it takes itself to be done, never a file cut short. With one connection that does its part for the HEAD request and one for the rest it gets the file. The length of the file must be below the number of values of size_t: the content length is cut to a size_t.",
  "every file up to 2^31 bytes (and below the number of values of size_t), every size of pieces, every number of connections and every point of failure of each; every host and path without CR and LF, every request and response buffer (also one for both), every transport and clock (also adversarial), every fragmentation, every well-behaved server, and every parser that reads well-formed responses","any number of connections, requests, fragmentations and points of failure; no test uses the result of one request in the next",
  a(C,"HTTPClient_InitializeRequestHeaders","HTTPClient_AddRangeHeader","HTTPClient_Send","httpParserOnHeadersCompleteCallback"))
open("/verif/properties.jsonl","w").write("".join(json.dumps(x,ensure_ascii=False)+"\n" for x in L))
print(len(L))
