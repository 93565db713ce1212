(** Generated by tools/translate_codegen.py: the names of arguments, intermediates and results of the
    generated functions. [T n] is tmp(n-1) (or x(n-1)), [IT n] is ints.tmp(n-1). *)
From Coq Require Import PArith.
From Verif Require Import CgModel.

Definition T (n : positive) : ref := xI (xO n).
Definition IT (n : positive) : ref := xI (xI n).
Definition n_t2 : ref := xO 1. (* t2 *)
Definition n_t1 : ref := xO 2. (* t1 *)
Definition n_f'ov : ref := xO 3. (* f.ov *)
Definition n_v'oovv : ref := xO 4. (* v.oovv *)
Definition n_e_cc : ref := xO 5. (* e_cc *)
Definition n_v'ooov : ref := xO 6. (* v.ooov *)
Definition n_v'ovvv : ref := xO 7. (* v.ovvv *)
Definition n_v'oooo : ref := xO 8. (* v.oooo *)
Definition n_v'ovov : ref := xO 9. (* v.ovov *)
Definition n_v'vvvv : ref := xO 10. (* v.vvvv *)
Definition n_f'vv : ref := xO 11. (* f.vv *)
Definition n_f'oo : ref := xO 12. (* f.oo *)
Definition n_v'ovoo : ref := xO 13. (* v.ovoo *)
Definition n_t2new : ref := xO 14. (* t2new *)
Definition n_t1new : ref := xO 15. (* t1new *)
Definition n_l2 : ref := xO 16. (* l2 *)
Definition n_l1 : ref := xO 17. (* l1 *)
Definition n_l2new : ref := xO 18. (* l2new *)
Definition n_l1new : ref := xO 19. (* l1new *)
Definition n_delta'oo : ref := xO 20. (* delta.oo *)
Definition n_delta'vv : ref := xO 21. (* delta.vv *)
Definition n_rdm1'vv : ref := xO 22. (* rdm1.vv *)
Definition n_rdm1'vo : ref := xO 23. (* rdm1.vo *)
Definition n_rdm1'ov : ref := xO 24. (* rdm1.ov *)
Definition n_rdm1'oo : ref := xO 25. (* rdm1.oo *)
Definition n_rdm2'vvvv : ref := xO 26. (* rdm2.vvvv *)
Definition n_rdm2'vvvo : ref := xO 27. (* rdm2.vvvo *)
Definition n_rdm2'vvov : ref := xO 28. (* rdm2.vvov *)
Definition n_rdm2'vovv : ref := xO 29. (* rdm2.vovv *)
Definition n_rdm2'ovvv : ref := xO 30. (* rdm2.ovvv *)
Definition n_rdm2'vvoo : ref := xO 31. (* rdm2.vvoo *)
Definition n_rdm2'vovo : ref := xO 32. (* rdm2.vovo *)
Definition n_rdm2'voov : ref := xO 33. (* rdm2.voov *)
Definition n_rdm2'ovvo : ref := xO 34. (* rdm2.ovvo *)
Definition n_rdm2'ovov : ref := xO 35. (* rdm2.ovov *)
Definition n_rdm2'oovv : ref := xO 36. (* rdm2.oovv *)
Definition n_rdm2'vooo : ref := xO 37. (* rdm2.vooo *)
Definition n_rdm2'ovoo : ref := xO 38. (* rdm2.ovoo *)
Definition n_rdm2'oovo : ref := xO 39. (* rdm2.oovo *)
Definition n_rdm2'ooov : ref := xO 40. (* rdm2.ooov *)
Definition n_rdm2'oooo : ref := xO 41. (* rdm2.oooo *)
Definition n_r2 : ref := xO 42. (* r2 *)
Definition n_r1 : ref := xO 43. (* r1 *)
Definition n_r2new : ref := xO 44. (* r2new *)
Definition n_r1new : ref := xO 45. (* r1new *)
Definition n_t3 : ref := xO 46. (* t3 *)
Definition n_t3new : ref := xO 47. (* t3new *)
Definition n_l3 : ref := xO 48. (* l3 *)
Definition n_l3new : ref := xO 49. (* l3new *)
Definition n_rdm1_f_oo : ref := xO 50. (* rdm1_f_oo *)
Definition n_rdm1_f_ov : ref := xO 51. (* rdm1_f_ov *)
Definition n_rdm1_f_vo : ref := xO 52. (* rdm1_f_vo *)
Definition n_rdm1_f_vv : ref := xO 53. (* rdm1_f_vv *)
Definition n_rdm2_f_oooo : ref := xO 54. (* rdm2_f_oooo *)
Definition n_rdm2_f_ovoo : ref := xO 55. (* rdm2_f_ovoo *)
Definition n_rdm2_f_vooo : ref := xO 56. (* rdm2_f_vooo *)
Definition n_rdm2_f_oovv : ref := xO 57. (* rdm2_f_oovv *)
Definition n_rdm2_f_ovov : ref := xO 58. (* rdm2_f_ovov *)
Definition n_rdm2_f_ovvo : ref := xO 59. (* rdm2_f_ovvo *)
Definition n_rdm2_f_voov : ref := xO 60. (* rdm2_f_voov *)
Definition n_rdm2_f_vovo : ref := xO 61. (* rdm2_f_vovo *)
Definition n_rdm2_f_vvoo : ref := xO 62. (* rdm2_f_vvoo *)
Definition n_rdm2_f_vvvv : ref := xO 63. (* rdm2_f_vvvv *)
Definition n_rdm2_f_ooov : ref := xO 64. (* rdm2_f_ooov *)
Definition n_rdm2_f_oovo : ref := xO 65. (* rdm2_f_oovo *)
Definition n_rdm2_f_vvov : ref := xO 66. (* rdm2_f_vvov *)
Definition n_rdm2_f_vvvo : ref := xO 67. (* rdm2_f_vvvo *)
Definition n_rdm2_f_ovvv : ref := xO 68. (* rdm2_f_ovvv *)
Definition n_rdm2_f_vovv : ref := xO 69. (* rdm2_f_vovv *)
Definition n_t4 : ref := xO 70. (* t4 *)
Definition n_t4new : ref := xO 71. (* t4new *)
Definition n_u11 : ref := xO 72. (* u11 *)
Definition n_s1 : ref := xO 73. (* s1 *)
Definition n_g'bov : ref := xO 74. (* g.bov *)
Definition n_G : ref := xO 75. (* G *)
Definition n_g'boo : ref := xO 76. (* g.boo *)
Definition n_g'bvo : ref := xO 77. (* g.bvo *)
Definition n_g'bvv : ref := xO 78. (* g.bvv *)
Definition n_s2 : ref := xO 79. (* s2 *)
Definition n_v'vvov : ref := xO 80. (* v.vvov *)
Definition n_w : ref := xO 81. (* w *)
Definition n_f'vo : ref := xO 82. (* f.vo *)
Definition n_v'vvoo : ref := xO 83. (* v.vvoo *)
Definition n_gc'boo : ref := xO 84. (* gc.boo *)
Definition n_gc'bov : ref := xO 85. (* gc.bov *)
Definition n_gc'bvo : ref := xO 86. (* gc.bvo *)
Definition n_gc'bvv : ref := xO 87. (* gc.bvv *)
Definition n_s1new : ref := xO 88. (* s1new *)
Definition n_u11new : ref := xO 89. (* u11new *)
Definition n_s2new : ref := xO 90. (* s2new *)
Definition n_ls1 : ref := xO 91. (* ls1 *)
Definition n_lu11 : ref := xO 92. (* lu11 *)
Definition n_ls2 : ref := xO 93. (* ls2 *)
Definition n_ls1new : ref := xO 94. (* ls1new *)
Definition n_lu11new : ref := xO 95. (* lu11new *)
Definition n_ls2new : ref := xO 96. (* ls2new *)
Definition n_delta_oo : ref := xO 97. (* delta_oo *)
Definition n_delta_vv : ref := xO 98. (* delta_vv *)
Definition n_dm_b_cre : ref := xO 99. (* dm_b_cre *)
Definition n_dm_b_des : ref := xO 100. (* dm_b_des *)
Definition n_rdm1_b : ref := xO 101. (* rdm1_b *)
Definition n_rdm_eb_cre_oo : ref := xO 102. (* rdm_eb_cre_oo *)
Definition n_rdm_eb_cre_ov : ref := xO 103. (* rdm_eb_cre_ov *)
Definition n_rdm_eb_des_oo : ref := xO 104. (* rdm_eb_des_oo *)
Definition n_rdm_eb_des_vo : ref := xO 105. (* rdm_eb_des_vo *)
Definition n_rdm_eb_des_ov : ref := xO 106. (* rdm_eb_des_ov *)
Definition n_rdm_eb_des_vv : ref := xO 107. (* rdm_eb_des_vv *)
Definition n_rdm_eb_cre_vo : ref := xO 108. (* rdm_eb_cre_vo *)
Definition n_rdm_eb_cre_vv : ref := xO 109. (* rdm_eb_cre_vv *)
Definition n_u12 : ref := xO 110. (* u12 *)
Definition n_u12new : ref := xO 111. (* u12new *)
Definition n_lu12 : ref := xO 112. (* lu12 *)
Definition n_lu12new : ref := xO 113. (* lu12new *)
Definition n_t1_Ov : ref := xO 114. (* t1_Ov *)
Definition n_v'OoVv : ref := xO 115. (* v.OoVv *)
Definition n_t1_oV : ref := xO 116. (* t1_oV *)
Definition n_v'OOvv : ref := xO 117. (* v.OOvv *)
Definition n_v'Ovoo : ref := xO 118. (* v.Ovoo *)
Definition n_v'Vovv : ref := xO 119. (* v.Vovv *)
Definition n_v'VVoo : ref := xO 120. (* v.VVoo *)
Definition n_v'Oovv : ref := xO 121. (* v.Oovv *)
Definition n_v'Vvoo : ref := xO 122. (* v.Vvoo *)
Definition n_t2_OOvv : ref := xO 123. (* t2_OOvv *)
Definition n_t2_Oovv : ref := xO 124. (* t2_Oovv *)
Definition n_t2_OoVv : ref := xO 125. (* t2_OoVv *)
Definition n_t2_ooVV : ref := xO 126. (* t2_ooVV *)
Definition n_f'Ov : ref := xO 127. (* f.Ov *)
Definition n_t2_OOVv : ref := xO 128. (* t2_OOVv *)
Definition n_v'VoVV : ref := xO 129. (* v.VoVV *)
Definition n_t2_ooVv : ref := xO 130. (* t2_ooVv *)
Definition n_v'OvVo : ref := xO 131. (* v.OvVo *)
Definition n_v'OoOv : ref := xO 132. (* v.OoOv *)
Definition n_v'OoVV : ref := xO 133. (* v.OoVV *)
Definition n_v'OoOV : ref := xO 134. (* v.OoOV *)
Definition n_v'VVvv : ref := xO 135. (* v.VVvv *)
Definition n_v'OvOO : ref := xO 136. (* v.OvOO *)
Definition n_v'VoVv : ref := xO 137. (* v.VoVv *)
Definition n_v'OVVv : ref := xO 138. (* v.OVVv *)
Definition n_v'OOoo : ref := xO 139. (* v.OOoo *)
Definition n_v'OOVv : ref := xO 140. (* v.OOVv *)
Definition n_f'Vo : ref := xO 141. (* f.Vo *)
Definition n_t2_OoVV : ref := xO 142. (* t2_OoVV *)
Definition n_v'VVVV : ref := xO 143. (* v.VVVV *)
Definition n_f'VV : ref := xO 144. (* f.VV *)
Definition n_f'OO : ref := xO 145. (* f.OO *)
Definition n_v'OVOV : ref := xO 146. (* v.OVOV *)
Definition n_v'OvVV : ref := xO 147. (* v.OvVV *)
Definition n_v'OOOO : ref := xO 148. (* v.OOOO *)
Definition n_v'OOVo : ref := xO 149. (* v.OOVo *)
Definition n_f'OV : ref := xO 150. (* f.OV *)
Definition n_v'OOVV : ref := xO 151. (* v.OOVV *)
Definition n_t2new_OOVv : ref := xO 152. (* t2new_OOVv *)
Definition n_t2new_OOvV : ref := xO 153. (* t2new_OOvV *)
Definition n_t2new_oOVV : ref := xO 154. (* t2new_oOVV *)
Definition n_t2new_OoVV : ref := xO 155. (* t2new_OoVV *)
Definition n_t2new_OOVV : ref := xO 156. (* t2new_OOVV *)
Definition n_t1new_OV : ref := xO 157. (* t1new_OV *)
Definition n_e_mp : ref := xO 158. (* e_mp *)
Definition n_v'oVOO : ref := xO 159. (* v.oVOO *)
Definition n_t1new'OV : ref := xO 160. (* t1new.OV *)
Definition n_t2new'OOVV : ref := xO 161. (* t2new.OOVV *)
Definition n_t2new'OoVV : ref := xO 162. (* t2new.OoVV *)
Definition n_t2new'oOVV : ref := xO 163. (* t2new.oOVV *)
Definition n_t2new'OOvV : ref := xO 164. (* t2new.OOvV *)
Definition n_t2new'OOVv : ref := xO 165. (* t2new.OOVv *)
Definition n_v'oOvV : ref := xO 166. (* v.oOvV *)
Definition n_v'OOvV : ref := xO 167. (* v.OOvV *)
Definition n_v'oOVV : ref := xO 168. (* v.oOVV *)
Definition n_c1 : ref := xO 169. (* c1 *)
Definition n_c2 : ref := xO 170. (* c2 *)
Definition n_c3 : ref := xO 171. (* c3 *)
Definition n_c4 : ref := xO 172. (* c4 *)
Definition n_v'ovvo : ref := xO 173. (* v.ovvo *)
Definition n_v'vovv : ref := xO 174. (* v.vovv *)
Definition n_v'oovo : ref := xO 175. (* v.oovo *)
Definition n_v'vovo : ref := xO 176. (* v.vovo *)
Definition n_v'Vvov : ref := xO 177. (* v.Vvov *)
Definition n_v'Voov : ref := xO 178. (* v.Voov *)
Definition n_v'VoVo : ref := xO 179. (* v.VoVo *)
Definition n_v'Ooov : ref := xO 180. (* v.Ooov *)
Definition n_v'Ovov : ref := xO 181. (* v.Ovov *)
Definition n_v'OVov : ref := xO 182. (* v.OVov *)
Definition n_v'OvOv : ref := xO 183. (* v.OvOv *)
Definition n_v'OoOo : ref := xO 184. (* v.OoOo *)
Definition n_t2_OovV : ref := xO 185. (* t2_OovV *)
Definition n_t2_OOvV : ref := xO 186. (* t2_OOvV *)
Definition n_v'VvVv : ref := xO 187. (* v.VvVv *)
Definition n_v'OVVo : ref := xO 188. (* v.OVVo *)
Definition n_v'OvOV : ref := xO 189. (* v.OvOV *)
Definition n_v'OOov : ref := xO 190. (* v.OOov *)
Definition n_v'VVov : ref := xO 191. (* v.VVov *)
Definition n_v'OVOo : ref := xO 192. (* v.OVOo *)
Definition n_v'xov : ref := xO 193. (* v.xov *)
Definition n_v'xoo : ref := xO 194. (* v.xoo *)
Definition n_v'xvv : ref := xO 195. (* v.xvv *)
Definition n_v'oOOV : ref := xO 196. (* v.oOOV *)
Definition n_v'OVvV : ref := xO 197. (* v.OVvV *)
Definition n_t4a : ref := xO 198. (* t4a *)
Definition n_v'oVOv : ref := xO 199. (* v.oVOv *)
Definition n_v'ovOV : ref := xO 200. (* v.ovOV *)
Definition n_v'OVOv : ref := xO 201. (* v.OVOv *)
Definition n_v'oVOV : ref := xO 202. (* v.oVOV *)
Definition n_c4a : ref := xO 203. (* c4a *)
Definition n_v'aaaa'ovov : ref := xO 204. (* v.aaaa.ovov *)
Definition n_v'bbbb'ovov : ref := xO 205. (* v.bbbb.ovov *)
Definition n_f'aa'ov : ref := xO 206. (* f.aa.ov *)
Definition n_t1'aa : ref := xO 207. (* t1.aa *)
Definition n_f'bb'ov : ref := xO 208. (* f.bb.ov *)
Definition n_v'aabb'ovov : ref := xO 209. (* v.aabb.ovov *)
Definition n_t1'bb : ref := xO 210. (* t1.bb *)
Definition n_t2'bbbb : ref := xO 211. (* t2.bbbb *)
Definition n_t2'aaaa : ref := xO 212. (* t2.aaaa *)
Definition n_t2'abab : ref := xO 213. (* t2.abab *)
Definition n_v'bbbb'ovvv : ref := xO 214. (* v.bbbb.ovvv *)
Definition n_v'bbbb'ooov : ref := xO 215. (* v.bbbb.ooov *)
Definition n_v'aaaa'ooov : ref := xO 216. (* v.aaaa.ooov *)
Definition n_v'aaaa'ovvv : ref := xO 217. (* v.aaaa.ovvv *)
Definition n_v'bbbb'oooo : ref := xO 218. (* v.bbbb.oooo *)
Definition n_v'bbbb'oovv : ref := xO 219. (* v.bbbb.oovv *)
Definition n_v'bbbb'vvvv : ref := xO 220. (* v.bbbb.vvvv *)
Definition n_v'aabb'vvov : ref := xO 221. (* v.aabb.vvov *)
Definition n_v'aabb'ovvv : ref := xO 222. (* v.aabb.ovvv *)
Definition n_v'aabb'ooov : ref := xO 223. (* v.aabb.ooov *)
Definition n_v'aabb'ovoo : ref := xO 224. (* v.aabb.ovoo *)
Definition n_v'aaaa'oovv : ref := xO 225. (* v.aaaa.oovv *)
Definition n_v'aaaa'oooo : ref := xO 226. (* v.aaaa.oooo *)
Definition n_v'aaaa'vvvv : ref := xO 227. (* v.aaaa.vvvv *)
Definition n_v'bbbb'ovoo : ref := xO 228. (* v.bbbb.ovoo *)
Definition n_f'bb'oo : ref := xO 229. (* f.bb.oo *)
Definition n_f'bb'vv : ref := xO 230. (* f.bb.vv *)
Definition n_v'aabb'vvvv : ref := xO 231. (* v.aabb.vvvv *)
Definition n_v'aabb'vvoo : ref := xO 232. (* v.aabb.vvoo *)
Definition n_v'aabb'oooo : ref := xO 233. (* v.aabb.oooo *)
Definition n_f'aa'vv : ref := xO 234. (* f.aa.vv *)
Definition n_v'aabb'oovv : ref := xO 235. (* v.aabb.oovv *)
Definition n_f'aa'oo : ref := xO 236. (* f.aa.oo *)
Definition n_t2new'bbbb : ref := xO 237. (* t2new.bbbb *)
Definition n_t2new'abab : ref := xO 238. (* t2new.abab *)
Definition n_t2new'aaaa : ref := xO 239. (* t2new.aaaa *)
Definition n_t1new'bb : ref := xO 240. (* t1new.bb *)
Definition n_t1new'aa : ref := xO 241. (* t1new.aa *)
Definition n_l1'bb : ref := xO 242. (* l1.bb *)
Definition n_l2'abab : ref := xO 243. (* l2.abab *)
Definition n_l2'bbbb : ref := xO 244. (* l2.bbbb *)
Definition n_l1'aa : ref := xO 245. (* l1.aa *)
Definition n_l2'aaaa : ref := xO 246. (* l2.aaaa *)
Definition n_v'aaaa'ovoo : ref := xO 247. (* v.aaaa.ovoo *)
Definition n_l2new'bbbb : ref := xO 248. (* l2new.bbbb *)
Definition n_l2new'abab : ref := xO 249. (* l2new.abab *)
Definition n_l2new'aaaa : ref := xO 250. (* l2new.aaaa *)
Definition n_l1new'bb : ref := xO 251. (* l1new.bb *)
Definition n_l1new'aa : ref := xO 252. (* l1new.aa *)
Definition n_delta'aa'oo : ref := xO 253. (* delta.aa.oo *)
Definition n_delta'aa'vv : ref := xO 254. (* delta.aa.vv *)
Definition n_delta'bb'oo : ref := xO 255. (* delta.bb.oo *)
Definition n_delta'bb'vv : ref := xO 256. (* delta.bb.vv *)
Definition n_rdm1'bb'vv : ref := xO 257. (* rdm1.bb.vv *)
Definition n_rdm1'aa'vv : ref := xO 258. (* rdm1.aa.vv *)
Definition n_rdm1'bb'vo : ref := xO 259. (* rdm1.bb.vo *)
Definition n_rdm1'aa'vo : ref := xO 260. (* rdm1.aa.vo *)
Definition n_rdm1'bb'ov : ref := xO 261. (* rdm1.bb.ov *)
Definition n_rdm1'aa'ov : ref := xO 262. (* rdm1.aa.ov *)
Definition n_rdm1'bb'oo : ref := xO 263. (* rdm1.bb.oo *)
Definition n_rdm1'aa'oo : ref := xO 264. (* rdm1.aa.oo *)
Definition n_rdm2'bbbb'vvvv : ref := xO 265. (* rdm2.bbbb.vvvv *)
Definition n_rdm2'abab'vvvv : ref := xO 266. (* rdm2.abab.vvvv *)
Definition n_rdm2'aaaa'vvvv : ref := xO 267. (* rdm2.aaaa.vvvv *)
Definition n_rdm2'bbbb'vvvo : ref := xO 268. (* rdm2.bbbb.vvvo *)
Definition n_rdm2'abab'vvvo : ref := xO 269. (* rdm2.abab.vvvo *)
Definition n_rdm2'aaaa'vvvo : ref := xO 270. (* rdm2.aaaa.vvvo *)
Definition n_rdm2'bbbb'vvov : ref := xO 271. (* rdm2.bbbb.vvov *)
Definition n_rdm2'abab'vvov : ref := xO 272. (* rdm2.abab.vvov *)
Definition n_rdm2'aaaa'vvov : ref := xO 273. (* rdm2.aaaa.vvov *)
Definition n_rdm2'bbbb'vovv : ref := xO 274. (* rdm2.bbbb.vovv *)
Definition n_rdm2'abab'vovv : ref := xO 275. (* rdm2.abab.vovv *)
Definition n_rdm2'aaaa'vovv : ref := xO 276. (* rdm2.aaaa.vovv *)
Definition n_rdm2'bbbb'ovvv : ref := xO 277. (* rdm2.bbbb.ovvv *)
Definition n_rdm2'abab'ovvv : ref := xO 278. (* rdm2.abab.ovvv *)
Definition n_rdm2'aaaa'ovvv : ref := xO 279. (* rdm2.aaaa.ovvv *)
Definition n_rdm2'bbbb'vvoo : ref := xO 280. (* rdm2.bbbb.vvoo *)
Definition n_rdm2'abab'vvoo : ref := xO 281. (* rdm2.abab.vvoo *)
Definition n_rdm2'aaaa'vvoo : ref := xO 282. (* rdm2.aaaa.vvoo *)
Definition n_rdm2'bbbb'vovo : ref := xO 283. (* rdm2.bbbb.vovo *)
Definition n_rdm2'abab'vovo : ref := xO 284. (* rdm2.abab.vovo *)
Definition n_rdm2'aaaa'vovo : ref := xO 285. (* rdm2.aaaa.vovo *)
Definition n_rdm2'bbbb'voov : ref := xO 286. (* rdm2.bbbb.voov *)
Definition n_rdm2'abab'voov : ref := xO 287. (* rdm2.abab.voov *)
Definition n_rdm2'aaaa'voov : ref := xO 288. (* rdm2.aaaa.voov *)
Definition n_rdm2'bbbb'ovvo : ref := xO 289. (* rdm2.bbbb.ovvo *)
Definition n_rdm2'abab'ovvo : ref := xO 290. (* rdm2.abab.ovvo *)
Definition n_rdm2'aaaa'ovvo : ref := xO 291. (* rdm2.aaaa.ovvo *)
Definition n_rdm2'bbbb'ovov : ref := xO 292. (* rdm2.bbbb.ovov *)
Definition n_rdm2'abab'ovov : ref := xO 293. (* rdm2.abab.ovov *)
Definition n_rdm2'aaaa'ovov : ref := xO 294. (* rdm2.aaaa.ovov *)
Definition n_rdm2'bbbb'oovv : ref := xO 295. (* rdm2.bbbb.oovv *)
Definition n_rdm2'abab'oovv : ref := xO 296. (* rdm2.abab.oovv *)
Definition n_rdm2'aaaa'oovv : ref := xO 297. (* rdm2.aaaa.oovv *)
Definition n_rdm2'bbbb'vooo : ref := xO 298. (* rdm2.bbbb.vooo *)
Definition n_rdm2'abab'vooo : ref := xO 299. (* rdm2.abab.vooo *)
Definition n_rdm2'aaaa'vooo : ref := xO 300. (* rdm2.aaaa.vooo *)
Definition n_rdm2'bbbb'ovoo : ref := xO 301. (* rdm2.bbbb.ovoo *)
Definition n_rdm2'abab'ovoo : ref := xO 302. (* rdm2.abab.ovoo *)
Definition n_rdm2'aaaa'ovoo : ref := xO 303. (* rdm2.aaaa.ovoo *)
Definition n_rdm2'bbbb'oovo : ref := xO 304. (* rdm2.bbbb.oovo *)
Definition n_rdm2'abab'oovo : ref := xO 305. (* rdm2.abab.oovo *)
Definition n_rdm2'aaaa'oovo : ref := xO 306. (* rdm2.aaaa.oovo *)
Definition n_rdm2'bbbb'ooov : ref := xO 307. (* rdm2.bbbb.ooov *)
Definition n_rdm2'abab'ooov : ref := xO 308. (* rdm2.abab.ooov *)
Definition n_rdm2'aaaa'ooov : ref := xO 309. (* rdm2.aaaa.ooov *)
Definition n_rdm2'bbbb'oooo : ref := xO 310. (* rdm2.bbbb.oooo *)
Definition n_rdm2'abab'oooo : ref := xO 311. (* rdm2.abab.oooo *)
Definition n_rdm2'aaaa'oooo : ref := xO 312. (* rdm2.aaaa.oooo *)
Definition n_r2'bbb : ref := xO 313. (* r2.bbb *)
Definition n_r2'aba : ref := xO 314. (* r2.aba *)
Definition n_r1'b : ref := xO 315. (* r1.b *)
Definition n_r2'bab : ref := xO 316. (* r2.bab *)
Definition n_r2'aaa : ref := xO 317. (* r2.aaa *)
Definition n_r1'a : ref := xO 318. (* r1.a *)
Definition n_r2new'bbb : ref := xO 319. (* r2new.bbb *)
Definition n_r2new'bab : ref := xO 320. (* r2new.bab *)
Definition n_r2new'aba : ref := xO 321. (* r2new.aba *)
Definition n_r2new'aaa : ref := xO 322. (* r2new.aaa *)
Definition n_r1new'b : ref := xO 323. (* r1new.b *)
Definition n_r1new'a : ref := xO 324. (* r1new.a *)
Definition n_t3'bbbbbb : ref := xO 325. (* t3.bbbbbb *)
Definition n_t3'aaaaaa : ref := xO 326. (* t3.aaaaaa *)
Definition n_t3'babbab : ref := xO 327. (* t3.babbab *)
Definition n_t3'abaaba : ref := xO 328. (* t3.abaaba *)
Definition n_t3new'bbbbbb : ref := xO 329. (* t3new.bbbbbb *)
Definition n_t3new'babbab : ref := xO 330. (* t3new.babbab *)
Definition n_t3new'abaaba : ref := xO 331. (* t3new.abaaba *)
Definition n_t3new'aaaaaa : ref := xO 332. (* t3new.aaaaaa *)
Definition n_t1new_bb : ref := xO 333. (* t1new_bb *)
Definition n_t1new_aa : ref := xO 334. (* t1new_aa *)
Definition n_t2new_aaaa : ref := xO 335. (* t2new_aaaa *)
Definition n_t2new_abab : ref := xO 336. (* t2new_abab *)
Definition n_t2new_bbbb : ref := xO 337. (* t2new_bbbb *)
Definition n_t3new_abaaba : ref := xO 338. (* t3new_abaaba *)
Definition n_t3new_babbab : ref := xO 339. (* t3new_babbab *)
Definition n_t3new_aaaaaa : ref := xO 340. (* t3new_aaaaaa *)
Definition n_t3new_bbbbbb : ref := xO 341. (* t3new_bbbbbb *)
Definition n_l3'babbab : ref := xO 342. (* l3.babbab *)
Definition n_l3'abaaba : ref := xO 343. (* l3.abaaba *)
Definition n_l3'bbbbbb : ref := xO 344. (* l3.bbbbbb *)
Definition n_l3'aaaaaa : ref := xO 345. (* l3.aaaaaa *)
Definition n_l1new_bb : ref := xO 346. (* l1new_bb *)
Definition n_l1new_aa : ref := xO 347. (* l1new_aa *)
Definition n_l2new_aaaa : ref := xO 348. (* l2new_aaaa *)
Definition n_l2new_abab : ref := xO 349. (* l2new_abab *)
Definition n_l2new_bbbb : ref := xO 350. (* l2new_bbbb *)
Definition n_l3new_aaaaaa : ref := xO 351. (* l3new_aaaaaa *)
Definition n_l3new_babbab : ref := xO 352. (* l3new_babbab *)
Definition n_l3new_abaaba : ref := xO 353. (* l3new_abaaba *)
Definition n_l3new_bbbbbb : ref := xO 354. (* l3new_bbbbbb *)
Definition n_l3new'aaaaaa : ref := xO 355. (* l3new.aaaaaa *)
Definition n_l3new'abaaba : ref := xO 356. (* l3new.abaaba *)
Definition n_l3new'babbab : ref := xO 357. (* l3new.babbab *)
Definition n_l3new'bbbbbb : ref := xO 358. (* l3new.bbbbbb *)
Definition n_rdm1_f_aa_oo : ref := xO 359. (* rdm1_f_aa_oo *)
Definition n_rdm1_f_bb_oo : ref := xO 360. (* rdm1_f_bb_oo *)
Definition n_rdm1_f_aa_ov : ref := xO 361. (* rdm1_f_aa_ov *)
Definition n_rdm1_f_bb_ov : ref := xO 362. (* rdm1_f_bb_ov *)
Definition n_rdm1_f_aa_vo : ref := xO 363. (* rdm1_f_aa_vo *)
Definition n_rdm1_f_bb_vo : ref := xO 364. (* rdm1_f_bb_vo *)
Definition n_rdm1_f_aa_vv : ref := xO 365. (* rdm1_f_aa_vv *)
Definition n_rdm1_f_bb_vv : ref := xO 366. (* rdm1_f_bb_vv *)
Definition n_rdm2_f_aaaa_oooo : ref := xO 367. (* rdm2_f_aaaa_oooo *)
Definition n_rdm2_f_bbbb_oooo : ref := xO 368. (* rdm2_f_bbbb_oooo *)
Definition n_rdm2_f_aaaa_ovoo : ref := xO 369. (* rdm2_f_aaaa_ovoo *)
Definition n_rdm2_f_abab_ovoo : ref := xO 370. (* rdm2_f_abab_ovoo *)
Definition n_rdm2_f_bbbb_ovoo : ref := xO 371. (* rdm2_f_bbbb_ovoo *)
Definition n_rdm2_f_aaaa_vooo : ref := xO 372. (* rdm2_f_aaaa_vooo *)
Definition n_rdm2_f_abab_vooo : ref := xO 373. (* rdm2_f_abab_vooo *)
Definition n_rdm2_f_bbbb_vooo : ref := xO 374. (* rdm2_f_bbbb_vooo *)
Definition n_rdm2_f_aaaa_oovv : ref := xO 375. (* rdm2_f_aaaa_oovv *)
Definition n_rdm2_f_abab_oovv : ref := xO 376. (* rdm2_f_abab_oovv *)
Definition n_rdm2_f_bbbb_oovv : ref := xO 377. (* rdm2_f_bbbb_oovv *)
Definition n_rdm2_f_aaaa_ovov : ref := xO 378. (* rdm2_f_aaaa_ovov *)
Definition n_rdm2_f_bbbb_ovov : ref := xO 379. (* rdm2_f_bbbb_ovov *)
Definition n_rdm2_f_aaaa_ovvo : ref := xO 380. (* rdm2_f_aaaa_ovvo *)
Definition n_rdm2_f_abab_ovvo : ref := xO 381. (* rdm2_f_abab_ovvo *)
Definition n_rdm2_f_bbbb_ovvo : ref := xO 382. (* rdm2_f_bbbb_ovvo *)
Definition n_rdm2_f_aaaa_voov : ref := xO 383. (* rdm2_f_aaaa_voov *)
Definition n_rdm2_f_abab_voov : ref := xO 384. (* rdm2_f_abab_voov *)
Definition n_rdm2_f_bbbb_voov : ref := xO 385. (* rdm2_f_bbbb_voov *)
Definition n_rdm2_f_aaaa_vovo : ref := xO 386. (* rdm2_f_aaaa_vovo *)
Definition n_rdm2_f_bbbb_vovo : ref := xO 387. (* rdm2_f_bbbb_vovo *)
Definition n_rdm2_f_aaaa_vvoo : ref := xO 388. (* rdm2_f_aaaa_vvoo *)
Definition n_rdm2_f_abab_vvoo : ref := xO 389. (* rdm2_f_abab_vvoo *)
Definition n_rdm2_f_bbbb_vvoo : ref := xO 390. (* rdm2_f_bbbb_vvoo *)
Definition n_rdm2_f_abab_ovvv : ref := xO 391. (* rdm2_f_abab_ovvv *)
Definition n_rdm2_f_abab_vovv : ref := xO 392. (* rdm2_f_abab_vovv *)
Definition n_rdm2_f_abab_vvov : ref := xO 393. (* rdm2_f_abab_vvov *)
Definition n_rdm2_f_aaaa_vvvv : ref := xO 394. (* rdm2_f_aaaa_vvvv *)
Definition n_rdm2_f_abab_vvvv : ref := xO 395. (* rdm2_f_abab_vvvv *)
Definition n_rdm2_f_bbbb_vvvv : ref := xO 396. (* rdm2_f_bbbb_vvvv *)
Definition n_rdm2_f_abab_oooo : ref := xO 397. (* rdm2_f_abab_oooo *)
Definition n_rdm2_f_abab_ooov : ref := xO 398. (* rdm2_f_abab_ooov *)
Definition n_rdm2_f_abab_oovo : ref := xO 399. (* rdm2_f_abab_oovo *)
Definition n_rdm2_f_aaaa_ooov : ref := xO 400. (* rdm2_f_aaaa_ooov *)
Definition n_rdm2_f_aaaa_oovo : ref := xO 401. (* rdm2_f_aaaa_oovo *)
Definition n_rdm2_f_aaaa_vvov : ref := xO 402. (* rdm2_f_aaaa_vvov *)
Definition n_rdm2_f_aaaa_vvvo : ref := xO 403. (* rdm2_f_aaaa_vvvo *)
Definition n_rdm2_f_abab_vovo : ref := xO 404. (* rdm2_f_abab_vovo *)
Definition n_rdm2_f_abab_ovov : ref := xO 405. (* rdm2_f_abab_ovov *)
Definition n_rdm2_f_bbbb_ooov : ref := xO 406. (* rdm2_f_bbbb_ooov *)
Definition n_rdm2_f_bbbb_oovo : ref := xO 407. (* rdm2_f_bbbb_oovo *)
Definition n_rdm2_f_bbbb_vvov : ref := xO 408. (* rdm2_f_bbbb_vvov *)
Definition n_rdm2_f_bbbb_vvvo : ref := xO 409. (* rdm2_f_bbbb_vvvo *)
Definition n_rdm2_f_abab_vvvo : ref := xO 410. (* rdm2_f_abab_vvvo *)
Definition n_rdm2_f_aaaa_ovvv : ref := xO 411. (* rdm2_f_aaaa_ovvv *)
Definition n_rdm2_f_aaaa_vovv : ref := xO 412. (* rdm2_f_aaaa_vovv *)
Definition n_rdm2_f_bbbb_ovvv : ref := xO 413. (* rdm2_f_bbbb_ovvv *)
Definition n_rdm2_f_bbbb_vovv : ref := xO 414. (* rdm2_f_bbbb_vovv *)
Definition n_g'aa'bov : ref := xO 415. (* g.aa.bov *)
Definition n_g'bb'bov : ref := xO 416. (* g.bb.bov *)
Definition n_u11'aa : ref := xO 417. (* u11.aa *)
Definition n_u11'bb : ref := xO 418. (* u11.bb *)
Definition n_g'aa'boo : ref := xO 419. (* g.aa.boo *)
Definition n_g'aa'bvo : ref := xO 420. (* g.aa.bvo *)
Definition n_g'aa'bvv : ref := xO 421. (* g.aa.bvv *)
Definition n_g'bb'boo : ref := xO 422. (* g.bb.boo *)
Definition n_g'bb'bvo : ref := xO 423. (* g.bb.bvo *)
Definition n_g'bb'bvv : ref := xO 424. (* g.bb.bvv *)
Definition n_v'aaaa'ovvo : ref := xO 425. (* v.aaaa.ovvo *)
Definition n_v'bbaa'ovvv : ref := xO 426. (* v.bbaa.ovvv *)
Definition n_v'bbbb'ovvo : ref := xO 427. (* v.bbbb.ovvo *)
Definition n_v'aaaa'vovv : ref := xO 428. (* v.aaaa.vovv *)
Definition n_v'bbaa'ovvo : ref := xO 429. (* v.bbaa.ovvo *)
Definition n_v'aaaa'oovo : ref := xO 430. (* v.aaaa.oovo *)
Definition n_v'bbbb'vovv : ref := xO 431. (* v.bbbb.vovv *)
Definition n_v'aabb'ovvo : ref := xO 432. (* v.aabb.ovvo *)
Definition n_v'bbbb'oovo : ref := xO 433. (* v.bbbb.oovo *)
Definition n_v'aabb'vvvo : ref := xO 434. (* v.aabb.vvvo *)
Definition n_v'bbaa'oovv : ref := xO 435. (* v.bbaa.oovv *)
Definition n_v'bbaa'oovo : ref := xO 436. (* v.bbaa.oovo *)
Definition n_v'aabb'oovo : ref := xO 437. (* v.aabb.oovo *)
Definition n_v'aabb'vovv : ref := xO 438. (* v.aabb.vovv *)
Definition n_f'aa'vo : ref := xO 439. (* f.aa.vo *)
Definition n_f'bb'vo : ref := xO 440. (* f.bb.vo *)
Definition n_v'aaaa'vovo : ref := xO 441. (* v.aaaa.vovo *)
Definition n_v'bbbb'vovo : ref := xO 442. (* v.bbbb.vovo *)
Definition n_v'aabb'vovo : ref := xO 443. (* v.aabb.vovo *)
Definition n_gc'aa'boo : ref := xO 444. (* gc.aa.boo *)
Definition n_gc'aa'bov : ref := xO 445. (* gc.aa.bov *)
Definition n_gc'aa'bvo : ref := xO 446. (* gc.aa.bvo *)
Definition n_gc'aa'bvv : ref := xO 447. (* gc.aa.bvv *)
Definition n_gc'bb'boo : ref := xO 448. (* gc.bb.boo *)
Definition n_gc'bb'bov : ref := xO 449. (* gc.bb.bov *)
Definition n_gc'bb'bvo : ref := xO 450. (* gc.bb.bvo *)
Definition n_gc'bb'bvv : ref := xO 451. (* gc.bb.bvv *)
Definition n_u11new_aa : ref := xO 452. (* u11new_aa *)
Definition n_t2new_baba : ref := xO 453. (* t2new_baba *)
Definition n_u11new_bb : ref := xO 454. (* u11new_bb *)
Definition n_t2new'baba : ref := xO 455. (* t2new.baba *)
Definition n_u11new'aa : ref := xO 456. (* u11new.aa *)
Definition n_u11new'bb : ref := xO 457. (* u11new.bb *)
Definition n_lu11'aa : ref := xO 458. (* lu11.aa *)
Definition n_lu11'bb : ref := xO 459. (* lu11.bb *)
Definition n_l2new_baba : ref := xO 460. (* l2new_baba *)
Definition n_lu11new_aa : ref := xO 461. (* lu11new_aa *)
Definition n_lu11new_bb : ref := xO 462. (* lu11new_bb *)
Definition n_l2new'baba : ref := xO 463. (* l2new.baba *)
Definition n_lu11new'aa : ref := xO 464. (* lu11new.aa *)
Definition n_lu11new'bb : ref := xO 465. (* lu11new.bb *)
Definition n_delta_oo'aa : ref := xO 466. (* delta_oo.aa *)
Definition n_delta_oo'bb : ref := xO 467. (* delta_oo.bb *)
Definition n_delta_vv'aa : ref := xO 468. (* delta_vv.aa *)
Definition n_delta_vv'bb : ref := xO 469. (* delta_vv.bb *)
Definition n_rdm1_f_oo_aa : ref := xO 470. (* rdm1_f_oo_aa *)
Definition n_rdm1_f_oo_bb : ref := xO 471. (* rdm1_f_oo_bb *)
Definition n_rdm1_f_vo_aa : ref := xO 472. (* rdm1_f_vo_aa *)
Definition n_rdm1_f_vo_bb : ref := xO 473. (* rdm1_f_vo_bb *)
Definition n_rdm1_f_vv_aa : ref := xO 474. (* rdm1_f_vv_aa *)
Definition n_rdm1_f_vv_bb : ref := xO 475. (* rdm1_f_vv_bb *)
Definition n_rdm1_f_ov_aa : ref := xO 476. (* rdm1_f_ov_aa *)
Definition n_rdm1_f_ov_bb : ref := xO 477. (* rdm1_f_ov_bb *)
Definition n_rdm2_f_oooo_aaaa : ref := xO 478. (* rdm2_f_oooo_aaaa *)
Definition n_rdm2_f_vovo_bbaa : ref := xO 479. (* rdm2_f_vovo_bbaa *)
Definition n_rdm2_f_vovo_aabb : ref := xO 480. (* rdm2_f_vovo_aabb *)
Definition n_rdm2_f_oovo_aabb : ref := xO 481. (* rdm2_f_oovo_aabb *)
Definition n_rdm2_f_vovo_aaaa : ref := xO 482. (* rdm2_f_vovo_aaaa *)
Definition n_rdm2_f_vooo_bbaa : ref := xO 483. (* rdm2_f_vooo_bbaa *)
Definition n_rdm2_f_oovv_aaaa : ref := xO 484. (* rdm2_f_oovv_aaaa *)
Definition n_rdm2_f_vvoo_aaaa : ref := xO 485. (* rdm2_f_vvoo_aaaa *)
Definition n_rdm2_f_ovvo_aaaa : ref := xO 486. (* rdm2_f_ovvo_aaaa *)
Definition n_rdm2_f_voov_aaaa : ref := xO 487. (* rdm2_f_voov_aaaa *)
Definition n_rdm2_f_ooov_aaaa : ref := xO 488. (* rdm2_f_ooov_aaaa *)
Definition n_rdm2_f_ovoo_aaaa : ref := xO 489. (* rdm2_f_ovoo_aaaa *)
Definition n_rdm2_f_oooo_aabb : ref := xO 490. (* rdm2_f_oooo_aabb *)
Definition n_rdm2_f_oooo_bbaa : ref := xO 491. (* rdm2_f_oooo_bbaa *)
Definition n_rdm2_f_oovo_bbaa : ref := xO 492. (* rdm2_f_oovo_bbaa *)
Definition n_rdm2_f_vooo_aabb : ref := xO 493. (* rdm2_f_vooo_aabb *)
Definition n_rdm2_f_oovv_bbaa : ref := xO 494. (* rdm2_f_oovv_bbaa *)
Definition n_rdm2_f_vvoo_aabb : ref := xO 495. (* rdm2_f_vvoo_aabb *)
Definition n_rdm2_f_ovvo_aabb : ref := xO 496. (* rdm2_f_ovvo_aabb *)
Definition n_rdm2_f_voov_bbaa : ref := xO 497. (* rdm2_f_voov_bbaa *)
Definition n_rdm2_f_vovv_bbaa : ref := xO 498. (* rdm2_f_vovv_bbaa *)
Definition n_rdm2_f_vvvo_aabb : ref := xO 499. (* rdm2_f_vvvo_aabb *)
Definition n_rdm2_f_ooov_bbaa : ref := xO 500. (* rdm2_f_ooov_bbaa *)
Definition n_rdm2_f_ovoo_aabb : ref := xO 501. (* rdm2_f_ovoo_aabb *)
Definition n_rdm2_f_oooo_bbbb : ref := xO 502. (* rdm2_f_oooo_bbbb *)
Definition n_rdm2_f_vovo_bbbb : ref := xO 503. (* rdm2_f_vovo_bbbb *)
Definition n_rdm2_f_vooo_bbbb : ref := xO 504. (* rdm2_f_vooo_bbbb *)
Definition n_rdm2_f_oovv_bbbb : ref := xO 505. (* rdm2_f_oovv_bbbb *)
Definition n_rdm2_f_vvoo_bbbb : ref := xO 506. (* rdm2_f_vvoo_bbbb *)
Definition n_rdm2_f_ovvo_bbbb : ref := xO 507. (* rdm2_f_ovvo_bbbb *)
Definition n_rdm2_f_voov_bbbb : ref := xO 508. (* rdm2_f_voov_bbbb *)
Definition n_rdm2_f_ooov_bbbb : ref := xO 509. (* rdm2_f_ooov_bbbb *)
Definition n_rdm2_f_ovoo_bbbb : ref := xO 510. (* rdm2_f_ovoo_bbbb *)
Definition n_rdm2_f_vooo_aaaa : ref := xO 511. (* rdm2_f_vooo_aaaa *)
Definition n_rdm2_f_oovv_aabb : ref := xO 512. (* rdm2_f_oovv_aabb *)
Definition n_rdm2_f_vvoo_bbaa : ref := xO 513. (* rdm2_f_vvoo_bbaa *)
Definition n_rdm2_f_ovvo_bbaa : ref := xO 514. (* rdm2_f_ovvo_bbaa *)
Definition n_rdm2_f_voov_aabb : ref := xO 515. (* rdm2_f_voov_aabb *)
Definition n_rdm2_f_vovv_aabb : ref := xO 516. (* rdm2_f_vovv_aabb *)
Definition n_rdm2_f_vvvo_bbaa : ref := xO 517. (* rdm2_f_vvvo_bbaa *)
Definition n_rdm2_f_ooov_aabb : ref := xO 518. (* rdm2_f_ooov_aabb *)
Definition n_rdm2_f_ovoo_bbaa : ref := xO 519. (* rdm2_f_ovoo_bbaa *)
Definition n_rdm2_f_oovo_aaaa : ref := xO 520. (* rdm2_f_oovo_aaaa *)
Definition n_rdm2_f_oovo_bbbb : ref := xO 521. (* rdm2_f_oovo_bbbb *)
Definition n_rdm2_f_vovv_aaaa : ref := xO 522. (* rdm2_f_vovv_aaaa *)
Definition n_rdm2_f_vvvo_aaaa : ref := xO 523. (* rdm2_f_vvvo_aaaa *)
Definition n_rdm2_f_ovvv_aaaa : ref := xO 524. (* rdm2_f_ovvv_aaaa *)
Definition n_rdm2_f_vvov_aaaa : ref := xO 525. (* rdm2_f_vvov_aaaa *)
Definition n_rdm2_f_ovvv_bbbb : ref := xO 526. (* rdm2_f_ovvv_bbbb *)
Definition n_rdm2_f_vvov_bbbb : ref := xO 527. (* rdm2_f_vvov_bbbb *)
Definition n_rdm2_f_ovvv_bbaa : ref := xO 528. (* rdm2_f_ovvv_bbaa *)
Definition n_rdm2_f_vvov_aabb : ref := xO 529. (* rdm2_f_vvov_aabb *)
Definition n_rdm2_f_vvvv_bbaa : ref := xO 530. (* rdm2_f_vvvv_bbaa *)
Definition n_rdm2_f_vvvv_aabb : ref := xO 531. (* rdm2_f_vvvv_aabb *)
Definition n_rdm2_f_ovvv_aabb : ref := xO 532. (* rdm2_f_ovvv_aabb *)
Definition n_rdm2_f_vvov_bbaa : ref := xO 533. (* rdm2_f_vvov_bbaa *)
Definition n_rdm2_f_vovv_bbbb : ref := xO 534. (* rdm2_f_vovv_bbbb *)
Definition n_rdm2_f_vvvo_bbbb : ref := xO 535. (* rdm2_f_vvvo_bbbb *)
Definition n_rdm2_f_vvvv_aaaa : ref := xO 536. (* rdm2_f_vvvv_aaaa *)
Definition n_rdm2_f_vvvv_bbbb : ref := xO 537. (* rdm2_f_vvvv_bbbb *)
Definition n_rdm2_f_ovov_aaaa : ref := xO 538. (* rdm2_f_ovov_aaaa *)
Definition n_rdm2_f_ovov_bbbb : ref := xO 539. (* rdm2_f_ovov_bbbb *)
Definition n_rdm2_f_ovov_bbaa : ref := xO 540. (* rdm2_f_ovov_bbaa *)
Definition n_rdm2_f_ovov_aabb : ref := xO 541. (* rdm2_f_ovov_aabb *)
Definition n_rdm_eb_cre_oo_aa : ref := xO 542. (* rdm_eb_cre_oo_aa *)
Definition n_rdm_eb_cre_ov_aa : ref := xO 543. (* rdm_eb_cre_ov_aa *)
Definition n_rdm_eb_cre_oo_bb : ref := xO 544. (* rdm_eb_cre_oo_bb *)
Definition n_rdm_eb_cre_ov_bb : ref := xO 545. (* rdm_eb_cre_ov_bb *)
Definition n_rdm_eb_des_oo_aa : ref := xO 546. (* rdm_eb_des_oo_aa *)
Definition n_rdm_eb_des_vo_aa : ref := xO 547. (* rdm_eb_des_vo_aa *)
Definition n_rdm_eb_des_vv_aa : ref := xO 548. (* rdm_eb_des_vv_aa *)
Definition n_rdm_eb_des_ov_aa : ref := xO 549. (* rdm_eb_des_ov_aa *)
Definition n_rdm_eb_des_oo_bb : ref := xO 550. (* rdm_eb_des_oo_bb *)
Definition n_rdm_eb_des_ov_bb : ref := xO 551. (* rdm_eb_des_ov_bb *)
Definition n_rdm_eb_des_vo_bb : ref := xO 552. (* rdm_eb_des_vo_bb *)
Definition n_rdm_eb_des_vv_bb : ref := xO 553. (* rdm_eb_des_vv_bb *)
Definition n_rdm_eb_cre_vo_aa : ref := xO 554. (* rdm_eb_cre_vo_aa *)
Definition n_rdm_eb_cre_vo_bb : ref := xO 555. (* rdm_eb_cre_vo_bb *)
Definition n_rdm_eb_cre_vv_aa : ref := xO 556. (* rdm_eb_cre_vv_aa *)
Definition n_rdm_eb_cre_vv_bb : ref := xO 557. (* rdm_eb_cre_vv_bb *)
Definition n_u12'bb : ref := xO 558. (* u12.bb *)
Definition n_u12'aa : ref := xO 559. (* u12.aa *)
Definition n_u12new_aa : ref := xO 560. (* u12new_aa *)
Definition n_u12new_bb : ref := xO 561. (* u12new_bb *)
Definition n_u12new'aa : ref := xO 562. (* u12new.aa *)
Definition n_u12new'bb : ref := xO 563. (* u12new.bb *)
Definition n_lu12'aa : ref := xO 564. (* lu12.aa *)
Definition n_lu12'bb : ref := xO 565. (* lu12.bb *)
Definition n_lu12new_aa : ref := xO 566. (* lu12new_aa *)
Definition n_lu12new_bb : ref := xO 567. (* lu12new_bb *)
Definition n_lu12new'aa : ref := xO 568. (* lu12new.aa *)
Definition n_lu12new'bb : ref := xO 569. (* lu12new.bb *)
Definition n_v'bbb'xov : ref := xO 570. (* v.bbb.xov *)
Definition n_v'baa'xov : ref := xO 571. (* v.baa.xov *)
Definition n_v'bbb'xvv : ref := xO 572. (* v.bbb.xvv *)
Definition n_v'bbb'xoo : ref := xO 573. (* v.bbb.xoo *)
Definition n_v'baa'xvv : ref := xO 574. (* v.baa.xvv *)
Definition n_v'baa'xoo : ref := xO 575. (* v.baa.xoo *)
Definition n_t2'aa : ref := xO 576. (* t2.aa *)
Definition n_rdm2'aabb : ref := xO 577. (* rdm2.aabb *)
Definition n_rdm2'aabb'ooov : ref := xO 578. (* rdm2.aabb.ooov *)
Definition n_v'bb'xov : ref := xO 579. (* v.bb.xov *)
Definition n_v'aa'xov : ref := xO 580. (* v.aa.xov *)
Definition n_v'aa'xoo : ref := xO 581. (* v.aa.xoo *)
Definition n_v'aa'xvv : ref := xO 582. (* v.aa.xvv *)
Definition n_v'bb'xoo : ref := xO 583. (* v.bb.xoo *)
Definition n_v'bb'xvv : ref := xO 584. (* v.bb.xvv *)
Definition n_v'aaaa'OVOV : ref := xO 585. (* v.aaaa.OVOV *)
Definition n_v'bbbb'OVOV : ref := xO 586. (* v.bbbb.OVOV *)
Definition n_v'aabb'OVOV : ref := xO 587. (* v.aabb.OVOV *)
Definition n_v'aaaa'oOOV : ref := xO 588. (* v.aaaa.oOOV *)
Definition n_v'aabb'oOOV : ref := xO 589. (* v.aabb.oOOV *)
Definition n_v'aaaa'OVvV : ref := xO 590. (* v.aaaa.OVvV *)
Definition n_v'aabb'vVOV : ref := xO 591. (* v.aabb.vVOV *)
Definition n_v'bbbb'oOOV : ref := xO 592. (* v.bbbb.oOOV *)
Definition n_v'aabb'OVoO : ref := xO 593. (* v.aabb.OVoO *)
Definition n_v'aabb'OVvV : ref := xO 594. (* v.aabb.OVvV *)
Definition n_v'bbbb'OVvV : ref := xO 595. (* v.bbbb.OVvV *)
Definition n_f'aa'OV : ref := xO 596. (* f.aa.OV *)
Definition n_f'bb'OV : ref := xO 597. (* f.bb.OV *)
Definition n_t4'aaaaaaaa : ref := xO 598. (* t4.aaaaaaaa *)
Definition n_t4'abababab : ref := xO 599. (* t4.abababab *)
Definition n_t4'aaabaaab : ref := xO 600. (* t4.aaabaaab *)
Definition n_t4'abbbabbb : ref := xO 601. (* t4.abbbabbb *)
Definition n_t4'bbbbbbbb : ref := xO 602. (* t4.bbbbbbbb *)
Definition n_t1new'aa'OV : ref := xO 603. (* t1new.aa.OV *)
Definition n_t2new'aaaa'OoVV : ref := xO 604. (* t2new.aaaa.OoVV *)
Definition n_t2new'aaaa'oOVV : ref := xO 605. (* t2new.aaaa.oOVV *)
Definition n_t2new'aaaa'OOvV : ref := xO 606. (* t2new.aaaa.OOvV *)
Definition n_t2new'aaaa'OOVv : ref := xO 607. (* t2new.aaaa.OOVv *)
Definition n_t2new'abab'OoVV : ref := xO 608. (* t2new.abab.OoVV *)
Definition n_t2new'abab'OOVv : ref := xO 609. (* t2new.abab.OOVv *)
Definition n_t2new'abab'oOVV : ref := xO 610. (* t2new.abab.oOVV *)
Definition n_t2new'abab'OOvV : ref := xO 611. (* t2new.abab.OOvV *)
Definition n_t2new'bbbb'OoVV : ref := xO 612. (* t2new.bbbb.OoVV *)
Definition n_t2new'bbbb'oOVV : ref := xO 613. (* t2new.bbbb.oOVV *)
Definition n_t2new'bbbb'OOvV : ref := xO 614. (* t2new.bbbb.OOvV *)
Definition n_t2new'bbbb'OOVv : ref := xO 615. (* t2new.bbbb.OOVv *)
Definition n_t1new'bb'OV : ref := xO 616. (* t1new.bb.OV *)
Definition n_t2new'aaaa'OOVV : ref := xO 617. (* t2new.aaaa.OOVV *)
Definition n_t2new'abab'OOVV : ref := xO 618. (* t2new.abab.OOVV *)
Definition n_t2new'bbbb'OOVV : ref := xO 619. (* t2new.bbbb.OOVV *)
Definition n_v'aaaa'oVOV : ref := xO 620. (* v.aaaa.oVOV *)
Definition n_v'aabb'oVOV : ref := xO 621. (* v.aabb.oVOV *)
Definition n_v'aaaa'OVOv : ref := xO 622. (* v.aaaa.OVOv *)
Definition n_v'aabb'OvOV : ref := xO 623. (* v.aabb.OvOV *)
Definition n_v'aabb'OVoV : ref := xO 624. (* v.aabb.OVoV *)
Definition n_v'bbbb'oVOV : ref := xO 625. (* v.bbbb.oVOV *)
Definition n_v'bbbb'OVOv : ref := xO 626. (* v.bbbb.OVOv *)
Definition n_v'aabb'OVOv : ref := xO 627. (* v.aabb.OVOv *)
Definition n_v'aaaa'oVOv : ref := xO 628. (* v.aaaa.oVOv *)
Definition n_v'aaaa'ovOV : ref := xO 629. (* v.aaaa.ovOV *)
Definition n_v'bbbb'oVOv : ref := xO 630. (* v.bbbb.oVOv *)
Definition n_v'bbbb'ovOV : ref := xO 631. (* v.bbbb.ovOV *)
Definition n_v'aabb'OVov : ref := xO 632. (* v.aabb.OVov *)
Definition n_v'aabb'ovOV : ref := xO 633. (* v.aabb.ovOV *)
Definition n_c1'aa : ref := xO 634. (* c1.aa *)
Definition n_c1'bb : ref := xO 635. (* c1.bb *)
Definition n_c2'aaaa : ref := xO 636. (* c2.aaaa *)
Definition n_c2'abab : ref := xO 637. (* c2.abab *)
Definition n_c2'bbbb : ref := xO 638. (* c2.bbbb *)
Definition n_c3'aaaaaa : ref := xO 639. (* c3.aaaaaa *)
Definition n_c3'abaaba : ref := xO 640. (* c3.abaaba *)
Definition n_c3'bbbbbb : ref := xO 641. (* c3.bbbbbb *)
Definition n_c3'babbab : ref := xO 642. (* c3.babbab *)
Definition n_c4'aaaaaaaa : ref := xO 643. (* c4.aaaaaaaa *)
Definition n_c4'aaabaaab : ref := xO 644. (* c4.aaabaaab *)
Definition n_c4'bbbbbbbb : ref := xO 645. (* c4.bbbbbbbb *)
Definition n_c4'abababab : ref := xO 646. (* c4.abababab *)
Definition n_c4'abbbabbb : ref := xO 647. (* c4.abbbabbb *)
