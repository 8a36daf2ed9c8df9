.lia.cache
.nia.cache
.csdp.cache
