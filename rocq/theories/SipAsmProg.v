(** Generated by tools/gen_sipasm.py from the assembly sources. *)
From Verif Require Import Words SipAsmModel.

(** siphash/hash_amd64.s:6-200, one entry per instruction or label, in order. *)
Definition asm_hash_prog : list instr := [
  (* 6 *) IMovArg A_k0 CX;
  (* 7 *) IMovImm 8317987319222330741 R9;
  (* 8 *) IMovArg A_k1 DI;
  (* 9 *) IMovImm 7816392313619706465 BX;
  (* 10 *) IMovImm 7237128888997146477 AX;
  (* 11 *) IMovArg A_len DX;
  (* 12 *) IMov DX R11;
  (* 13 *) IMov DX R10;
  (* 14 *) IXor CX R9;
  (* 15 *) IXor CX BX;
  (* 16 *) IMovImm 8387220255154660723 CX;
  (* 17 *) IXor DI AX;
  (* 18 *) IXor DI CX;
  (* 19 *) IShlImm 56 R11;
  (* 20 *) IXor DI DI;
  (* 21 *) IMovArg A_base SI;
  (* 22 *) IAndImm 18446744073709551608 R10;
  (* 23 *) IJe L_afterLoop;
  (* 24 *) IXchg AX AX;
  (* 25 *) ILabel L_loopBody;
  (* 26 *) ILoad64 0 SI DI R8;
  (* 27 *) IAdd AX R9;
  (* 28 *) IRorImm 51 AX;
  (* 29 *) IXor R9 AX;
  (* 30 *) IRorImm 32 R9;
  (* 31 *) IAddImm 8 DI;
  (* 32 *) IXor R8 CX;
  (* 33 *) IAdd CX BX;
  (* 34 *) IRorImm 48 CX;
  (* 35 *) IXor BX CX;
  (* 36 *) IAdd AX BX;
  (* 37 *) IRorImm 47 AX;
  (* 38 *) IAdd CX R9;
  (* 39 *) IRorImm 43 CX;
  (* 40 *) IXor BX AX;
  (* 41 *) IXor R9 CX;
  (* 42 *) IRorImm 32 BX;
  (* 43 *) IAdd AX R9;
  (* 44 *) IAdd CX BX;
  (* 45 *) IRorImm 51 AX;
  (* 46 *) IRorImm 48 CX;
  (* 47 *) IXor R9 AX;
  (* 48 *) IXor BX CX;
  (* 49 *) IRorImm 32 R9;
  (* 50 *) IAdd AX BX;
  (* 51 *) IAdd CX R9;
  (* 52 *) IRorImm 47 AX;
  (* 53 *) IRorImm 43 CX;
  (* 54 *) IXor BX AX;
  (* 55 *) IRorImm 32 BX;
  (* 56 *) IXor R9 CX;
  (* 57 *) IXor R8 R9;
  (* 58 *) ICmp R10 DI;
  (* 59 *) IJa L_loopBody;
  (* 60 *) ILabel L_afterLoop;
  (* 61 *) ISub R10 DX;
  (* 63 *) ICmpImm DX 7;
  (* 64 *) IJa L_afterSwitch;
  (* 68 *) ICmpImm DX 7;
  (* 69 *) IJe L_sw7;
  (* 71 *) ICmpImm DX 6;
  (* 72 *) IJe L_sw6;
  (* 74 *) ICmpImm DX 5;
  (* 75 *) IJe L_sw5;
  (* 77 *) ICmpImm DX 4;
  (* 78 *) IJe L_sw4;
  (* 80 *) ICmpImm DX 3;
  (* 81 *) IJe L_sw3;
  (* 83 *) ICmpImm DX 2;
  (* 84 *) IJe L_sw2;
  (* 86 *) ICmpImm DX 1;
  (* 87 *) IJe L_sw1;
  (* 89 *) IJmp L_afterSwitch;
  (* 91 *) ILabel L_sw7;
  (* 91 *) ILoad8 6 SI DI DX;
  (* 92 *) IShlImm 48 DX;
  (* 93 *) IOr DX R11;
  (* 94 *) ILabel L_sw6;
  (* 94 *) ILoad8 5 SI DI DX;
  (* 95 *) IShlImm 40 DX;
  (* 96 *) IOr DX R11;
  (* 97 *) ILabel L_sw5;
  (* 97 *) ILoad8 4 SI DI DX;
  (* 98 *) IShlImm 32 DX;
  (* 99 *) IOr DX R11;
  (* 100 *) ILabel L_sw4;
  (* 100 *) ILoad8 3 SI DI DX;
  (* 101 *) IShlImm 24 DX;
  (* 102 *) IOr DX R11;
  (* 103 *) ILabel L_sw3;
  (* 103 *) ILoad8 2 SI DI DX;
  (* 104 *) IShlImm 16 DX;
  (* 105 *) IOr DX R11;
  (* 106 *) ILabel L_sw2;
  (* 106 *) ILoad8 1 SI DI DX;
  (* 107 *) IShlImm 8 DX;
  (* 108 *) IOr DX R11;
  (* 109 *) ILabel L_sw1;
  (* 109 *) ILoad8 0 SI DI DX;
  (* 110 *) IOr DX R11;
  (* 111 *) ILabel L_afterSwitch;
  (* 112 *) ILea AX R9 SI;
  (* 113 *) IXor R11 CX;
  (* 114 *) IRorImm 51 AX;
  (* 115 *) IAdd CX BX;
  (* 116 *) IMov CX DX;
  (* 117 *) IXor SI AX;
  (* 118 *) IRorImm 48 DX;
  (* 119 *) IRorImm 32 SI;
  (* 120 *) ILea BX AX CX;
  (* 121 *) IXor BX DX;
  (* 122 *) IRorImm 47 AX;
  (* 123 *) IAdd DX SI;
  (* 124 *) IRorImm 43 DX;
  (* 125 *) IXor CX AX;
  (* 126 *) IXor SI DX;
  (* 127 *) IRorImm 32 CX;
  (* 128 *) IAdd AX SI;
  (* 129 *) IRorImm 51 AX;
  (* 130 *) IAdd DX CX;
  (* 131 *) IXor SI AX;
  (* 132 *) IRorImm 48 DX;
  (* 133 *) IRorImm 32 SI;
  (* 134 *) IXor CX DX;
  (* 135 *) IAdd AX CX;
  (* 136 *) IRorImm 47 AX;
  (* 137 *) IAdd DX SI;
  (* 138 *) IXor CX AX;
  (* 139 *) IRorImm 43 DX;
  (* 140 *) IRorImm 32 CX;
  (* 141 *) IXor SI DX;
  (* 142 *) IXor R11 SI;
  (* 143 *) IXorbImm 255 CX;
  (* 144 *) IAdd AX SI;
  (* 145 *) IRorImm 51 AX;
  (* 146 *) IAdd DX CX;
  (* 147 *) IRorImm 48 DX;
  (* 148 *) IXor SI AX;
  (* 149 *) IXor CX DX;
  (* 150 *) IRorImm 32 SI;
  (* 151 *) IAdd AX CX;
  (* 152 *) IAdd DX SI;
  (* 153 *) IRorImm 47 AX;
  (* 154 *) IRorImm 43 DX;
  (* 155 *) IXor CX AX;
  (* 156 *) IXor SI DX;
  (* 157 *) IRorImm 32 CX;
  (* 158 *) IAdd AX SI;
  (* 159 *) IAdd DX CX;
  (* 160 *) IRorImm 51 AX;
  (* 161 *) IRorImm 48 DX;
  (* 162 *) IXor SI AX;
  (* 163 *) IRorImm 32 SI;
  (* 164 *) IXor CX DX;
  (* 165 *) IAdd AX CX;
  (* 166 *) IRorImm 47 AX;
  (* 167 *) IAdd DX SI;
  (* 168 *) IRorImm 43 DX;
  (* 169 *) IXor CX AX;
  (* 170 *) IXor SI DX;
  (* 171 *) IRorImm 32 CX;
  (* 172 *) IAdd AX SI;
  (* 173 *) IAdd DX CX;
  (* 174 *) IRorImm 51 AX;
  (* 175 *) IRorImm 48 DX;
  (* 176 *) IXor CX DX;
  (* 177 *) IXor SI AX;
  (* 178 *) IRorImm 32 SI;
  (* 179 *) IAdd DX SI;
  (* 180 *) IAdd AX CX;
  (* 181 *) IRorImm 47 AX;
  (* 182 *) IXor CX AX;
  (* 183 *) IRorImm 43 DX;
  (* 184 *) IRorImm 32 CX;
  (* 185 *) IXor SI DX;
  (* 186 *) IAdd AX SI;
  (* 187 *) IRorImm 51 AX;
  (* 188 *) IAdd DX CX;
  (* 189 *) IXor SI AX;
  (* 190 *) IRorImm 48 DX;
  (* 191 *) IXor CX DX;
  (* 192 *) IAdd AX CX;
  (* 193 *) IRorImm 47 AX;
  (* 194 *) IXor CX AX;
  (* 195 *) IRorImm 43 DX;
  (* 196 *) IRorImm 32 CX;
  (* 197 *) IXor DX AX;
  (* 198 *) IXor CX AX;
  (* 199 *) IStoreRet 0 AX;
  (* 200 *) IRet
].

(** siphash/hash128_amd64.s:13-290, one entry per instruction or label, in order. *)
Definition asm_hash128_prog : list instr := [
  (* 13 *) IMovArg A_k0 CX;
  (* 14 *) IMovImm 8317987319222330741 R9;
  (* 15 *) IMovArg A_k1 DI;
  (* 16 *) IMovImm 7816392313619706465 BX;
  (* 17 *) IMovImm 7237128888997146477 AX;
  (* 18 *) IMovArg A_len DX;
  (* 19 *) IXorImm 238 AX;
  (* 20 *) IMov DX R11;
  (* 21 *) IMov DX R10;
  (* 22 *) IXor CX R9;
  (* 23 *) IXor CX BX;
  (* 24 *) IMovImm 8387220255154660723 CX;
  (* 25 *) IXor DI AX;
  (* 26 *) IXor DI CX;
  (* 27 *) IShlImm 56 R11;
  (* 28 *) IXor DI DI;
  (* 29 *) IMovArg A_base SI;
  (* 30 *) IAndImm 18446744073709551608 R10;
  (* 31 *) IJe L_afterLoop;
  (* 32 *) IXchg AX AX;
  (* 33 *) ILabel L_loopBody;
  (* 34 *) ILoad64 0 SI DI R8;
  (* 35 *) IAdd AX R9;
  (* 36 *) IRorImm 51 AX;
  (* 37 *) IXor R9 AX;
  (* 38 *) IRorImm 32 R9;
  (* 39 *) IAddImm 8 DI;
  (* 40 *) IXor R8 CX;
  (* 41 *) IAdd CX BX;
  (* 42 *) IRorImm 48 CX;
  (* 43 *) IXor BX CX;
  (* 44 *) IAdd AX BX;
  (* 45 *) IRorImm 47 AX;
  (* 46 *) IAdd CX R9;
  (* 47 *) IRorImm 43 CX;
  (* 48 *) IXor BX AX;
  (* 49 *) IXor R9 CX;
  (* 50 *) IRorImm 32 BX;
  (* 51 *) IAdd AX R9;
  (* 52 *) IAdd CX BX;
  (* 53 *) IRorImm 51 AX;
  (* 54 *) IRorImm 48 CX;
  (* 55 *) IXor R9 AX;
  (* 56 *) IXor BX CX;
  (* 57 *) IRorImm 32 R9;
  (* 58 *) IAdd AX BX;
  (* 59 *) IAdd CX R9;
  (* 60 *) IRorImm 47 AX;
  (* 61 *) IRorImm 43 CX;
  (* 62 *) IXor BX AX;
  (* 63 *) IRorImm 32 BX;
  (* 64 *) IXor R9 CX;
  (* 65 *) IXor R8 R9;
  (* 66 *) ICmp R10 DI;
  (* 67 *) IJa L_loopBody;
  (* 68 *) ILabel L_afterLoop;
  (* 69 *) ISub R10 DX;
  (* 71 *) ICmpImm DX 7;
  (* 72 *) IJa L_afterSwitch;
  (* 76 *) ICmpImm DX 7;
  (* 77 *) IJe L_sw7;
  (* 79 *) ICmpImm DX 6;
  (* 80 *) IJe L_sw6;
  (* 82 *) ICmpImm DX 5;
  (* 83 *) IJe L_sw5;
  (* 85 *) ICmpImm DX 4;
  (* 86 *) IJe L_sw4;
  (* 88 *) ICmpImm DX 3;
  (* 89 *) IJe L_sw3;
  (* 91 *) ICmpImm DX 2;
  (* 92 *) IJe L_sw2;
  (* 94 *) ICmpImm DX 1;
  (* 95 *) IJe L_sw1;
  (* 97 *) IJmp L_afterSwitch;
  (* 99 *) ILabel L_sw7;
  (* 99 *) ILoad8 6 SI DI DX;
  (* 100 *) IShlImm 48 DX;
  (* 101 *) IOr DX R11;
  (* 102 *) ILabel L_sw6;
  (* 102 *) ILoad8 5 SI DI DX;
  (* 103 *) IShlImm 40 DX;
  (* 104 *) IOr DX R11;
  (* 105 *) ILabel L_sw5;
  (* 105 *) ILoad8 4 SI DI DX;
  (* 106 *) IShlImm 32 DX;
  (* 107 *) IOr DX R11;
  (* 108 *) ILabel L_sw4;
  (* 108 *) ILoad8 3 SI DI DX;
  (* 109 *) IShlImm 24 DX;
  (* 110 *) IOr DX R11;
  (* 111 *) ILabel L_sw3;
  (* 111 *) ILoad8 2 SI DI DX;
  (* 112 *) IShlImm 16 DX;
  (* 113 *) IOr DX R11;
  (* 114 *) ILabel L_sw2;
  (* 114 *) ILoad8 1 SI DI DX;
  (* 115 *) IShlImm 8 DX;
  (* 116 *) IOr DX R11;
  (* 117 *) ILabel L_sw1;
  (* 117 *) ILoad8 0 SI DI DX;
  (* 118 *) IOr DX R11;
  (* 119 *) ILabel L_afterSwitch;
  (* 120 *) ILea AX R9 SI;
  (* 121 *) IXor R11 CX;
  (* 122 *) IRorImm 51 AX;
  (* 123 *) IAdd CX BX;
  (* 124 *) IMov CX DX;
  (* 125 *) IXor SI AX;
  (* 126 *) IRorImm 48 DX;
  (* 127 *) IRorImm 32 SI;
  (* 128 *) ILea BX AX CX;
  (* 129 *) IXor BX DX;
  (* 130 *) IRorImm 47 AX;
  (* 131 *) IAdd DX SI;
  (* 132 *) IRorImm 43 DX;
  (* 133 *) IXor CX AX;
  (* 134 *) IXor SI DX;
  (* 135 *) IRorImm 32 CX;
  (* 136 *) IAdd AX SI;
  (* 137 *) IRorImm 51 AX;
  (* 138 *) IAdd DX CX;
  (* 139 *) IXor SI AX;
  (* 140 *) IRorImm 48 DX;
  (* 141 *) IRorImm 32 SI;
  (* 142 *) IXor CX DX;
  (* 143 *) IAdd AX CX;
  (* 144 *) IRorImm 47 AX;
  (* 145 *) IAdd DX SI;
  (* 146 *) IXor CX AX;
  (* 147 *) IRorImm 43 DX;
  (* 148 *) IRorImm 32 CX;
  (* 149 *) IXor SI DX;
  (* 150 *) IXor R11 SI;
  (* 151 *) IXorbImm 238 CX;
  (* 152 *) IAdd AX SI;
  (* 153 *) IRorImm 51 AX;
  (* 154 *) IAdd DX CX;
  (* 155 *) IRorImm 48 DX;
  (* 156 *) IXor SI AX;
  (* 157 *) IXor CX DX;
  (* 158 *) IRorImm 32 SI;
  (* 159 *) IAdd AX CX;
  (* 160 *) IAdd DX SI;
  (* 161 *) IRorImm 47 AX;
  (* 162 *) IRorImm 43 DX;
  (* 163 *) IXor CX AX;
  (* 164 *) IXor SI DX;
  (* 165 *) IRorImm 32 CX;
  (* 166 *) IAdd AX SI;
  (* 167 *) IAdd DX CX;
  (* 168 *) IRorImm 51 AX;
  (* 169 *) IRorImm 48 DX;
  (* 170 *) IXor SI AX;
  (* 171 *) IRorImm 32 SI;
  (* 172 *) IXor CX DX;
  (* 173 *) IAdd AX CX;
  (* 174 *) IRorImm 47 AX;
  (* 175 *) IAdd DX SI;
  (* 176 *) IRorImm 43 DX;
  (* 177 *) IXor CX AX;
  (* 178 *) IXor SI DX;
  (* 179 *) IRorImm 32 CX;
  (* 180 *) IAdd AX SI;
  (* 181 *) IAdd DX CX;
  (* 182 *) IRorImm 51 AX;
  (* 183 *) IRorImm 48 DX;
  (* 184 *) IXor CX DX;
  (* 185 *) IXor SI AX;
  (* 186 *) IRorImm 32 SI;
  (* 187 *) IAdd DX SI;
  (* 188 *) IAdd AX CX;
  (* 189 *) IRorImm 47 AX;
  (* 190 *) IXor CX AX;
  (* 191 *) IRorImm 43 DX;
  (* 192 *) IRorImm 32 CX;
  (* 193 *) IXor SI DX;
  (* 200 *) IAdd AX SI;
  (* 201 *) IRorImm 51 AX;
  (* 202 *) IAdd DX CX;
  (* 203 *) IRorImm 48 DX;
  (* 204 *) IXor SI AX;
  (* 205 *) IXor CX DX;
  (* 206 *) IRorImm 32 SI;
  (* 207 *) IAdd AX CX;
  (* 208 *) IAdd DX SI;
  (* 209 *) IRorImm 47 AX;
  (* 210 *) IRorImm 43 DX;
  (* 211 *) IXor CX AX;
  (* 212 *) IXor SI DX;
  (* 213 *) IRorImm 32 CX;
  (* 217 *) IMov SI BX;
  (* 218 *) IXor AX BX;
  (* 219 *) IXor DX BX;
  (* 220 *) IXor CX BX;
  (* 221 *) IStoreRet 0 BX;
  (* 225 *) IXorbImm 221 AX;
  (* 226 *) IAdd AX SI;
  (* 227 *) IRorImm 51 AX;
  (* 228 *) IAdd DX CX;
  (* 229 *) IRorImm 48 DX;
  (* 230 *) IXor SI AX;
  (* 231 *) IXor CX DX;
  (* 232 *) IRorImm 32 SI;
  (* 233 *) IAdd AX CX;
  (* 234 *) IAdd DX SI;
  (* 235 *) IRorImm 47 AX;
  (* 236 *) IRorImm 43 DX;
  (* 237 *) IXor CX AX;
  (* 238 *) IXor SI DX;
  (* 239 *) IRorImm 32 CX;
  (* 240 *) IAdd AX SI;
  (* 241 *) IAdd DX CX;
  (* 242 *) IRorImm 51 AX;
  (* 243 *) IRorImm 48 DX;
  (* 244 *) IXor SI AX;
  (* 245 *) IRorImm 32 SI;
  (* 246 *) IXor CX DX;
  (* 247 *) IAdd AX CX;
  (* 248 *) IRorImm 47 AX;
  (* 249 *) IAdd DX SI;
  (* 250 *) IRorImm 43 DX;
  (* 251 *) IXor CX AX;
  (* 252 *) IXor SI DX;
  (* 253 *) IRorImm 32 CX;
  (* 254 *) IAdd AX SI;
  (* 255 *) IAdd DX CX;
  (* 256 *) IRorImm 51 AX;
  (* 257 *) IRorImm 48 DX;
  (* 258 *) IXor CX DX;
  (* 259 *) IXor SI AX;
  (* 260 *) IRorImm 32 SI;
  (* 261 *) IAdd DX SI;
  (* 262 *) IAdd AX CX;
  (* 263 *) IRorImm 47 AX;
  (* 264 *) IXor CX AX;
  (* 265 *) IRorImm 43 DX;
  (* 266 *) IRorImm 32 CX;
  (* 267 *) IXor SI DX;
  (* 269 *) IAdd AX SI;
  (* 270 *) IRorImm 51 AX;
  (* 271 *) IAdd DX CX;
  (* 272 *) IRorImm 48 DX;
  (* 273 *) IXor SI AX;
  (* 274 *) IXor CX DX;
  (* 275 *) IRorImm 32 SI;
  (* 276 *) IAdd AX CX;
  (* 277 *) IAdd DX SI;
  (* 278 *) IRorImm 47 AX;
  (* 279 *) IRorImm 43 DX;
  (* 280 *) IXor CX AX;
  (* 281 *) IXor SI DX;
  (* 282 *) IRorImm 32 CX;
  (* 284 *) IMov SI BX;
  (* 285 *) IXor AX BX;
  (* 286 *) IXor DX BX;
  (* 287 *) IXor CX BX;
  (* 288 *) IStoreRet 1 BX;
  (* 290 *) IRet
].
