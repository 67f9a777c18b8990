.lia.cache
.nia.cache
.nia.cache
.lia.cache
