{
 "C06": {
  "note": "False in full (witness: a value with LF overwrites the terminating CRLF). Proved: nothing changes on HTTPInsufficientMemory/HTTPInvalidParameter, on HTTPSecurityAlertInvalidCharacter everything but the final blank line is kept; AddRangeHeader failures change nothing."
 },
 "C08": {
  "note": "False in full (CRLF in the path injects headers). Proved for CR/LF-free method and path."
 },
 "C39": {
  "note": "False in full (size_t sums wrap, on every platform). Proved when the sum of the lengths and the buffer length is below SIZE_MAX+1."
 },
 "C12": {
  "note": "False in full on 64-bit size_t (signed overflow at 2^31, array overrun at 2^31+1, wrong number at 2^32+5). Proved up to INT32_MAX."
 },
 "C13": {
  "note": "False in full (a second Content-Length line is appended by the second send). Proved without a body or with the disable flag."
 },
 "C46": {
  "note": "False in full (the macro does not count the CRLF: bodies of 100000000 bytes and more fail). Proved for macro + 2."
 },
 "C23": {
  "note": "False (refuted: a timeout gives HTTPPartialResponse, HTTPNoResponse, ...). Proved: a timeout is never reported as HTTPNetworkError."
 },
 "C25": {
  "note": "False (refuted: a folded value is delivered as the wrong bytes). Proved: number, lengths and status codes are right, and everything is right when pieces are adjacent."
 },
 "C26": {
  "note": "False (refuted: cutting CR|LF of the blank line changes headersLen from 17 to 20). Proved: what pHeaders/headersLen are in terms of the parser's reports, and that the block lies in the received data."
 },
 "C28": {
  "note": "False (refuted: method HEADX is treated as HEAD). Proved for HEAD and for methods not beginning with HEAD."
 },
 "C30": {
  "note": "False with the do-not-parse-body flag (refuted: headers cut by a timeout still give HTTPSuccess). Proved without the flag, and what holds with it."
 },
 "C31": {
  "note": "False (refuted: areHeadersComplete and contentLength keep old values when headers are incomplete). Proved for all other outputs, and for all when headers are complete."
 },
 "C32": {
  "note": "False (refuted: contentLength truncated to size_t). Proved for status code, flags, and contentLength that fits."
 },
 "C34": {
  "note": "False (refuted: absent header with a body gives HTTPInvalidResponse; value found in the body). Proved: first match among everything the parser reports; see C47."
 },
 "C36": {
  "note": "False for trailers (refuted). Proved for headers of the header section."
 },
 "C40": {
  "note": "False for HTTPClient_ReceiveAndParseHttpResponse called directly (refuted: NULL call). Proved for HTTPClient_Send, which replaces NULL."
 },
 "C41": {
  "note": "False (refuted: two messages in one read). Proved: nothing is read or parsed after a call of the parser that completed a message."
 },
 "C42": {
  "note": "False (refuted: CRLF alone received). Proved: HTTPNoResponse only if the parser began no message and reported no error."
 },
 "C45": {
  "note": "False (refuted: the last trailer is not delivered). Proved: everything but at most one is delivered, in order."
 },
 "C82": {
  "note": "False (refuted: the parser is shown memory behind the buffer before the claim is checked). Proved: such a claim is never taken for an answer."
 }
}