-Q theories Verif
theories/Base.v
theories/BaseLemmas.v
theories/Checksums_model.v
theories/Checksums_spec.v
theories/Checksums_proofs.v
theories/Streams_model.v
theories/Streams_spec.v
theories/Streams_proofs.v
theories/P_C20.v
theories/P_C21.v
theories/P_C45.v
theories/P_C01.v
theories/P_C02.v
theories/P_C03.v
theories/Hash_tables.v
theories/Hash_model.v
theories/Hash_spec.v
theories/Hash_proofs.v
theories/Hash_transform_proofs.v
theories/P_C04.v
theories/P_C05.v
theories/Lru_model.v
theories/Lru_spec.v
theories/Lru_proofs.v
theories/P_C23.v
theories/BlockTree_model.v
theories/BlockTree_spec.v
theories/BlockTree_proofs.v
theories/P_C24.v
theories/Bytes_model.v
theories/Bytes_spec.v
theories/Bytes_proofs.v
theories/P_C46.v
theories/Uuid_model.v
theories/Uuid_spec.v
theories/Uuid_proofs.v
theories/P_C16.v
theories/Strings_model.v
theories/Strings_spec.v
theories/Strings_proofs.v
theories/P_C17.v
theories/P_C47.v
theories/Base64_model.v
theories/Base64_spec.v
theories/Base64_proofs.v
theories/P_C13.v
theories/Utf8_model.v
theories/Utf8_spec.v
theories/Utf8_proofs.v
theories/P_C14.v
theories/CodePages_model.v
theories/CodePages_tables.v
theories/CodePages_standard.v
theories/CodePages_spec.v
theories/CodePages_proofs.v
theories/P_C15.v
theories/P_C48.v
theories/Lz_model.v
theories/Lz_spec.v
theories/Lz_proofs.v
theories/Lzvn_proofs.v
theories/Lznt1_proofs.v
theories/P_C06.v
theories/P_C07.v
theories/P_C08.v
theories/Huffman_model.v
theories/Huffman_spec.v
theories/Huffman_proofs.v
theories/P_C09.v
theories/Deflate_model.v
theories/Deflate_spec.v
theories/Deflate_proofs.v
theories/Deflate_streams.v
theories/P_C10.v
theories/P_C11.v
theories/Fields.v
theories/Datetime_model.v
theories/Datetime_spec.v
theories/Datetime_proofs.v
theories/P_C18.v
theories/P_C19.v
theories/Paths_model.v
theories/Paths_spec.v
theories/Paths_proofs.v
theories/P_C40.v
theories/P_C41.v
theories/P_C44.v
theories/Blocks_model.v
theories/Blocks_proofs.v
theories/Ntfs_model.v
theories/Ntfs_spec.v
theories/Ntfs_proofs.v
theories/P_C31.v
theories/P_C32.v
theories/P_C33.v
theories/Fat_model.v
theories/Fat_spec.v
theories/Fat_proofs.v
theories/P_C35.v
theories/Ext_model.v
theories/Ext_spec.v
theories/Ext_proofs.v
theories/P_C36.v
theories/Part_model.v
theories/Part_spec.v
theories/Part_proofs.v
theories/P_C37.v
theories/P_C38.v
theories/P_C49.v
theories/Image_spec.v
theories/Image_proofs.v
theories/Sparse_model.v
theories/Sparse_proofs.v
theories/P_C25.v
theories/P_C26.v
theories/Lazy_model.v
theories/Lazy_proofs.v
theories/Vhd_model.v
theories/Vhd_spec.v
theories/Vhd_proofs.v
theories/P_C27.v
theories/Vhdx_model.v
theories/Vhdx_spec.v
theories/Vhdx_proofs.v
theories/P_C28.v
theories/Qcow_model.v
theories/Qcow_spec.v
theories/Qcow_proofs.v
theories/P_C29.v
theories/Udif_model.v
theories/Udif_spec.v
theories/Udif_proofs.v
theories/P_C30.v
theories/NtfsCompressed_model.v
theories/NtfsCompressed_spec.v
theories/NtfsCompressed_proofs.v
theories/P_C34.v
theories/Sigscan_model.v
theories/Sigscan_spec.v
theories/Sigscan_proofs.v
theories/Sigscan_scan_proofs.v
theories/P_C39.v
theories/Formatters_model.v
theories/Formatters_spec.v
theories/Formatters_proofs.v
theories/P_C22.v
theories/Bzip2_model.v
theories/Bzip2_spec.v
theories/Bzip2_proofs.v
theories/Bzip2_block_proofs.v
theories/Bzip2_bwt_proofs.v
theories/Bzip2_stream_proofs.v
theories/Bzip2_total_proofs.v
theories/P_C12.v
theories/Ewf_model.v
theories/Ewf_spec.v
theories/Ewf_proofs.v
theories/P_C42.v
theories/Headers_model.v
theories/Headers_spec.v
theories/Headers_proofs.v
theories/Headers2_model.v
theories/Headers2_spec.v
theories/Headers2_proofs.v
theories/P_C43.v
theories/Case_model.v
theories/FatDir_model.v
theories/FatDir_spec.v
theories/FatDir_proofs.v
theories/P_C50.v
theories/ExtFs_model.v
theories/ExtFs_spec.v
theories/ExtFs_proofs.v
theories/P_C51.v
theories/ExtFs2_proofs.v
theories/P_C52.v
theories/NtfsFs_model.v
theories/NtfsFs_spec.v
theories/NtfsFs_proofs.v
theories/P_C53.v
theories/NtfsFs2_spec.v
theories/NtfsFs2_proofs.v
theories/NtfsFs3_proofs.v
theories/P_C54.v
theories/Lzx_model.v
theories/Lzx_spec.v
theories/Lzx_proofs.v
theories/Lzx2_proofs.v
theories/Lzx3_proofs.v
theories/Lzx4_proofs.v
theories/Lzx5_proofs.v
theories/P_C55.v
theories/Lzfse_model.v
theories/Lzfse_spec.v
theories/Lzfse_proofs.v
theories/Lzfse2_proofs.v
theories/Lzfse3_proofs.v
theories/Lzfse4_proofs.v
theories/Lzfse5_proofs.v
theories/P_C56.v
theories/UdifCodec_model.v
theories/UdifCodec_spec.v
theories/P_C57.v
theories/Wof_model.v
theories/Wof_spec.v
theories/Wof_proofs.v
theories/P_C58.v
theories/VfsVolumes_model.v
theories/VfsVolumes_spec.v
theories/P_C59.v
theories/Finder_model.v
theories/Finder_spec.v
theories/P_C60.v
theories/VfsContext_model.v
theories/VfsContext_spec.v
theories/P_C61.v
theories/Tools_model.v
theories/Tools_spec.v
theories/P_C62.v
theories/DisplayPath_model.v
theories/DisplayPath_spec.v
theories/P_C63.v
theories/VfsScanner_model.v
theories/VfsScanner_spec.v
theories/P_C64.v
theories/EwfHeader_model.v
theories/EwfHeader_spec.v
theories/P_C65.v
theories/FakeFs_model.v
theories/P_C66.v
theories/Resolver_model.v
theories/P_C67.v
theories/OsEntry_model.v
theories/P_C68.v
theories/Junction_model.v
theories/P_C69.v
theories/Export_model.v
theories/P_C70.v
