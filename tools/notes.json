{
 "C20": [
  "partial",
  "The documented promise is false: refuted with U+00A5. Proved for text without U+00A5, U+203E, U+2212; the exact behaviour on all text is C45."
 ],
 "C26": [
  "partial",
  "False as stated: refuted with [E3, 41]. Proved for is_end = false, and for is_end = true unless the input ends before the length announced by the lead byte at the start of the range."
 ],
 "C33": [
  "partial",
  "False as stated: refuted with U+8005. Proved for text without the 57 characters of big5_deviations; that exactly these deviate is C46."
 ],
 "C48": [
  "partial",
  "False as stated: `seen &= {x}` keeps the set empty, so duplicates stay (refuted with a file mapping 0x80 and 0x81 to U+00A0). Proved: exactly which files are rejected, the decode table, the exact set of encode entries, and strict sorting for files without duplicate code points above 0x7F."
 ]
}