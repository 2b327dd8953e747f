-Q theories Verif
theories/Base.v
theories/S_Bits.v
theories/L_Bits.v
theories/M_Hex.v
theories/S_Hex.v
theories/L_Hex.v
theories/P_Hex.v
theories/M_Varint.v
theories/S_Varint.v
theories/L_Varint.v
theories/P_Varint.v
theories/S_Rfc4648.v
theories/L_Rfc.v
theories/M_Base64.v
theories/L_Base64.v
theories/P_Base64.v
theories/P_Base64Exact.v
theories/M_Base32.v
theories/L_Base32.v
theories/P_Base32.v
theories/M_Base58.v
theories/S_Base58.v
theories/L_Base58.v
theories/P_Base58.v
theories/S_Words.v
theories/S_Sha2.v
theories/M_Endian.v
theories/L_Endian.v
theories/P_Endian.v
theories/M_Sha2.v
theories/L_Sha2.v
theories/L_Md.v
theories/L_Sha2Top.v
theories/L_D64.v
theories/S_Sha1.v
theories/M_Sha1.v
theories/L_Sha1.v
theories/S_Ripemd.v
theories/M_Ripemd.v
theories/L_Ripemd.v
theories/M_Hash.v
theories/L_Hash.v
theories/P_Hash.v
theories/M_Base58Check.v
theories/S_Base58Check.v
theories/L_Base58Check.v
theories/P_Base58Check.v
theories/M_Bech32.v
theories/S_Bech32.v
theories/L_Bch.v
theories/L_Bech32.v
theories/P_Bech32.v
theories/M_Address.v
theories/S_Address.v
theories/L_Address.v
theories/P_Address.v
theories/M_Random.v
theories/S_Random.v
theories/P_Random.v
theories/M_Secp.v
theories/S_Secp.v
theories/L_Secp.v
theories/M_Key.v
theories/M_Exkey.v
theories/S_Key.v
theories/L_KeyStr.v
theories/P_Wif.v
theories/S_Der.v
theories/L_Der.v
theories/L_Der2.v
theories/S_Sign.v
theories/S_Life.v
theories/P_Der.v
theories/P_Sign.v
theories/S_Bip32.v
theories/L_Bip32.v
theories/S_Exkey.v
theories/P_Bip32.v
theories/L_Exkey.v
theories/P_Exkey.v
theories/S_Mem.v
theories/M_Mem.v
theories/L_Mem.v
theories/P_Mem.v
theories/S_Scratch.v
theories/M_Scratch.v
theories/M_Residue.v
theories/L_Residue.v
theories/L_Residue2.v
theories/L_Residue3.v
theories/S_Residue.v
theories/P_Residue.v
theories/L_Scratch.v
theories/L_Scratch2.v
theories/P_Scratch.v
theories/M_Release.v
theories/S_Release.v
theories/L_Release.v
theories/P_Release.v
theories/M_Host.v
theories/L_Host.v
theories/L_Host2.v
theories/P_Host.v
theories/M_Overlap.v
theories/S_Overlap.v
theories/L_Overlap.v
theories/L_Overlap2.v
theories/L_Overlap3.v
theories/P_Overlap.v
theories/M_Sys.v
theories/P_Sys.v
theories/M_Char.v
theories/S_Char.v
theories/L_Char.v
theories/L_Char2.v
theories/P_Char.v
theories/M_Width.v
theories/P_Width.v
theories/M_Threads.v
theories/S_Threads.v
theories/L_Threads.v
theories/P_Threads.v
theories/M_Error.v
theories/S_Error.v
theories/P_Error.v
theories/P_Typos.v
theories/P_Pubkey.v
theories/S_Wallet.v
theories/P_Wallet.v
theories/S_Dest.v
theories/P_Dest.v
theories/P_Reader.v
theories/S_Chunk.v
theories/P_Chunk.v
theories/S_Collide.v
theories/P_Collide.v
theories/M_ErrorWin.v
theories/S_ErrorWin.v
theories/P_ErrorWin.v
theories/S_Tree.v
theories/P_Tree.v
theories/P_Sharp.v
theories/S_Base32Exact.v
theories/P_Base32Exact.v
theories/S_AddrExact.v
theories/P_AddrExact.v
theories/P_Base58Len.v
theories/S_Secp256k1.v
theories/L_Curve.v
theories/L_Pock.v
theories/L_Primes.v
theories/L_Zp.v
theories/L_Group.v
theories/L_Order.v
theories/L_SecpLaws.v
theories/P_Secp256k1.v
theories/L_Cofactor.v
theories/P_Binding.v
theories/S_Nonce.v
theories/P_Nonce.v
theories/S_Merkle.v
theories/P_Merkle.v
theories/M_MemBtc.v
theories/L_MemBtc.v
theories/P_MemBtc.v
theories/M_MemKey.v
theories/L_MemKey.v
theories/P_MemKey.v
theories/M_KeyMem.v
theories/S_KeyMem.v
theories/L_KeyMem.v
theories/P_KeyMem.v
theories/L_KeyLayout.v
theories/P_KeyMem2.v
theories/S_WalletMem.v
theories/P_WalletMem.v
theories/M_Leak.v
theories/S_Leak.v
theories/M_LeakText.v
theories/L_Leak.v
theories/L_LeakText.v
theories/P_Leak.v
theories/M_LeakKey.v
theories/S_LeakKey.v
theories/L_LeakKey.v
theories/P_LeakKey.v
theories/S_LeakBounds.v
theories/L_LeakBounds.v
theories/L_LeakBoundsText.v
theories/P_LeakBounds.v
theories/S_LeakBoundsKey.v
theories/L_LeakBoundsKey.v
theories/P_LeakBoundsKey.v
theories/S_LeakCover.v
theories/L_LeakCover.v
theories/L_LeakCoverText.v
theories/P_LeakCover.v
