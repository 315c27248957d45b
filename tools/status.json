{
 "C06": {"status": "proved", "note": "exact characterisation proved; the plain reading 'LongestChain is the longest chain' is refuted (chains of length one are never recorded)"},
 "C09": {"status": "proved", "note": "over exact rationals; float64 rounding is outside the model"}
}
